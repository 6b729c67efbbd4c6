(* Every error, every request: who answers; and what a bind that fails leaves behind. *)
From Coq Require Import Permutation Sorted.
From Verif Require Import M_Base M_Status M_Method M_Proto M_KeyValue M_Query M_Request M_Parser M_Client M_Body M_Response M_Serializer M_Suit M_Middleware M_App
  M_Path M_Radix M_Router M_Static S_Routes S_Router S_Static S_App L_Base L_Path L_Router5 L_Router7 L_Static L_App.

Theorem errors_exact : forall W (os : list (list nat * rop W)) x w r e, Running os x ->
  (r_method r = TRACE /\ e = ErrMethodNotAllowed /\
     let text := snd w ++ request_text (trace_line r) (kv_pairs (r_headers r) ++ [(B "Content-Length", B "0")]) in
     on_err x w r (EHttp e) = HRet (Some (Fields 200%N [] (B "message/http") [] [] text [] None)) (fst w, text)) \/
  (e = ErrNotFound /\ exists p h, In (p, h) (caught os) /\ Prefix p (r_path r) /\
     (forall p' h', In (p', h') (caught os) -> Prefix p' (r_path r) -> (List.length p' <= List.length p)%nat) /\
     on_err x w r (EHttp e) = h w r) \/
  (~ (r_method r = TRACE /\ e = ErrMethodNotAllowed) /\ ~ (e = ErrNotFound /\ exists p h, In (p, h) (caught os) /\ Prefix p (r_path r)) /\
     on_err x w r (EHttp e) = HUpdate (set_error (EHttp e)) (error_choice os (he_code e) w (set_error (EHttp e) r))).
Proof.
  intros W os x w r e R.
  assert (D1 : (r_method r = TRACE /\ e = ErrMethodNotAllowed) \/ ~ (r_method r = TRACE /\ e = ErrMethodNotAllowed)).
  { assert (Dm : {r_method r = TRACE} + {r_method r <> TRACE}) by (destruct (r_method r); try (left; reflexivity); right; discriminate).
    assert (De : {e = ErrMethodNotAllowed} + {e <> ErrMethodNotAllowed}) by (repeat decide equality).
    destruct Dm; [|right; tauto]. destruct De; [left; tauto|right; tauto]. }
  destruct D1 as [(Hm & ->)|N1].
  - left. split; [exact Hm|]. split; [reflexivity|]. cbv zeta. apply trace_whole. exact Hm.
  - right. assert (De : {e = ErrNotFound} + {e <> ErrNotFound}) by (repeat decide equality).
    assert (D2 : (exists p h, In (p, h) (caught os) /\ Prefix p (r_path r)) \/ (forall p h, In (p, h) (caught os) -> ~ Prefix p (r_path r))).
    { destruct (existsb (fun c => has_prefix (r_path r) (fst c)) (caught os)) eqn:E.
      - left. apply existsb_exists in E. destruct E as ([p h] & Hi & Hp). exists p, h. split; [exact Hi|]. apply has_prefix_iff. exact Hp.
      - right. intros p h Hi Hp. apply has_prefix_iff in Hp. enough (existsb (fun c => has_prefix (r_path r) (fst c)) (caught os) = true) by congruence.
        apply existsb_exists. exists (p, h). split; [exact Hi|exact Hp]. }
    destruct De as [->|Ne].
    + destruct D2 as [(p & h & Hi & Hp)|D2].
      * left. split; [reflexivity|]. destruct (catcher_longest W os x w r p h R Hi Hp) as (q & hq & H1 & H2 & H3 & H4). exists q, hq. repeat split; assumption.
      * right. split; [exact N1|]. split; [intros (_ & p & h & Hi & Hp); exact (D2 p h Hi Hp)|]. apply errors_handled; [exact R|exact N1|]. intros _. exact D2.
    + right. split; [exact N1|]. split; [intros (C & _); contradiction|]. apply errors_handled; [exact R|exact N1|]. intros C. contradiction.
Qed.

Section Bind.
Context (Sock : Type) (listen : lkind -> bytes -> option Sock).
Lemma bind_prefix : forall before s after var servers socks, listen (so_listen s) (so_addr s) = None ->
  map Some socks = map (fun s => listen (so_listen s) (so_addr s)) before ->
  bind_loop listen (before ++ s :: after) var servers = BindFailed (map bs_sock servers ++ socks).
Proof.
  induction before as [|b before IH]; intros s after var servers socks Hs Hm; cbn [map app bind_loop] in *.
  - destruct socks; [|discriminate]. rewrite Hs, app_nil_r. reflexivity.
  - destruct socks as [|k socks]; [discriminate|]. cbn [map] in Hm. injection Hm as Hk Hm. rewrite <- Hk. cbv zeta.
    rewrite (IH s after _ _ socks Hs Hm). rewrite map_app. cbn [map bs_sock]. rewrite <- app_assoc. reflexivity.
Qed.
Theorem bind_exact : forall srcs opened, bind listen srcs = BindFailed opened <->
  exists before s after, srcs = before ++ s :: after /\ listen (so_listen s) (so_addr s) = None /\
    map Some opened = map (fun s => listen (so_listen s) (so_addr s)) before.
Proof.
  intros srcs opened. split; [apply failed_bind|]. intros (before & s & after & -> & Hs & Hm). unfold bind. rewrite (bind_prefix before s after _ [] opened Hs Hm). reflexivity.
Qed.
Theorem bind_clean_exact : forall s srcs, bind listen (s :: srcs) = BindFailed [] <-> listen (so_listen s) (so_addr s) = None.
Proof.
  intros s srcs. rewrite bind_exact. split.
  - intros (before & s' & after & E & Hs & Hm). destruct before as [|b before]; [|discriminate]. injection E as -> _. exact Hs.
  - intros H. exists [], s, srcs. repeat split. exact H.
Qed.
End Bind.
