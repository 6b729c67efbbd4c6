(* Properties C30, C112: where a router panics; applications without Recover. *)
From Verif Require Import M_Base M_Status M_Method M_Proto M_KeyValue M_Query M_Request M_Parser M_Client M_Body
  M_Response M_Serializer M_Suit M_Path M_Radix M_Router M_Middleware M_Bundled S_Static S_KeyValue S_Chunk S_Head S_Parser S_Body S_Response S_Conn S_Split S_Routes S_Router
  S_Serve S_Mutators S_Mutated S_Crash S_Frail
  L_Base L_Chunk L_Conn2 L_ConnProps L_Router5 L_RouterEx L_Serve L_ServeEx L_Mutators L_Mutated L_Crash L_Frail P_Parser.

(* C30: exactly when routing a request panics: the router has parameters and nothing is left of the
   path once the mutators and aliases are through with it *)
Theorem C30_panic_exact : forall W (os : list (list nat * rop W)) x r, Running os x ->
  (snd (route x r) = ToPanic <-> HasParams os /\ r_path (arrive x r) = []).
Proof. exact route_panics. Qed.
Print Assumptions C30_panic_exact.

(* C112: for all applications of the built-in router whose handlers, catchers and error handlers may
   panic anywhere, with any mutators and aliases (also to the empty path) and without Recover: the
   requests are answered in order, each by the handler it is dispatched to, up to one whose handler
   panics or that has no path left in a router with parameters.  That one gets nothing, and the
   connection ends there.
   Missing: the requests after it, which are lost; requests that want an upgrade; what
   C07_conversation_partial leaves out. *)
Theorem C112_frail_partial : forall CS cparse encoded fresh inside,
  DecoderOk CS cparse encoded fresh inside -> forall max, (max < two64)%Z ->
  forall cfg umax kmax vmax fbs defs, distinct_names defs ->
  forall W (os : list (list nat * rop W)) x mus, Running os x -> InOrder os [] mus -> HarmlessMutators os -> FrailApp fbs os ->
  forall reqs past (st : conn CS (world W)) tail,
  Between umax kmax vmax fbs defs fresh past st ->
  Forall (GoodRequest encoded (cfg_limits cfg umax kmax vmax) max) reqs ->
  Unfinished (cfg_limits cfg umax kmax vmax) tail ->
  stream (k_client st) = concat (map wire reqs) ++ tail ->
  exists n outs e st1,
    FrailTalk defs os mus reqs (k_world st) past outs (k_world st1) e /\
    cl_out (k_client st1) = cl_out (k_client st) ++ outs /\
    forall fuel, (n <= fuel)%nat ->
      serve cparse max cfg (on_request x) (on_error x) fuel st =
      match e with
      | AllAnswered => close_with cparse max (on_error x) EndRead st1
      | ClosedBefore _ => close_with cparse max (on_error x) EndWrite st1
      | PanickedAt _ _ => (EndPanic, st1)
      end.
Proof.
  intros CS cparse encoded fresh inside HD max Hmax cfg umax kmax vmax fbs defs Hdefs W os x mus HR HI HM HF reqs past st tail HB Hg HU Hs.
  destruct (crash_connection CS cparse encoded fresh inside HD max Hmax cfg umax kmax vmax fbs defs Hdefs (world W) (on_request x) (on_error x) reqs past st tail
    (fun _ w r _ _ => frail_tame W os x HR HM mus HI fbs HF w r) HB Hg HU Hs) as [(n & st1 & C1 & C2)|(n & outs & closed & st1 & C1 & C2 & C3)].
  - destruct C1 as (before & q & after & outs & r & r' & v' & E & D1 & D2 & D3 & D4). exists n, outs, (PanickedAt q after), st1.
    split; [|split; [exact D2|exact C2]]. rewrite E. eapply (frail_crash W os x HR mus HI); [exact D1|reflexivity|].
    eapply (frail_outcome W os x HR mus HI); [exact D3|exact D4].
  - exists n, outs, (match closed with None => AllAnswered | Some rest => ClosedBefore rest end), st1.
    split; [apply (frail_conversation W os x HR mus HI); exact C1|]. split; [exact C2|]. destruct closed; exact C3.
Qed.
Print Assumptions C112_frail_partial.

(* a request for /a is answered; the next ones would be, but an alias leaves the second no path, or its
   handler panics *)
Definition ex_pathless : list (list nat * rop (list nat)) :=
  [([], Route POST (B "/hello/{name}") greet []); ([], Alias (B "/a") (B "/hello/bob")); ([], Alias (B "/b") [])].
Definition ex_broken : list (list nat * rop (list nat)) :=
  [([], Route POST (B "/a") repeat_body []); ([], Route GET (B "/b") (fun w r => HBody OBytes (fun _ => HCrash)) []); ([], Route GET (B "/c") repeat_body [])].
Example C112_frail_case : Forall (GoodRequest chunked_text ex_lim 100) ex_reqs /\
  HasParams ex_pathless /\ ~ HasParams ex_broken /\ FrailApp 64 ex_pathless /\ FrailApp 64 ex_broken /\
  HarmlessMutators ex_pathless /\ HarmlessMutators ex_broken /\
  (exists x, Running ex_pathless x /\ fst (shop_serve x [ex_stream]) = EndPanic /\
    cl_out (k_client (snd (shop_serve x [ex_stream]))) = [ok_text (B "HTTP/1.1") (B "hello bob")]) /\
  (exists x, Running ex_broken x /\ fst (shop_serve x [ex_stream]) = EndPanic /\
    cl_out (k_client (snd (shop_serve x [ex_stream]))) = [ok_text (B "HTTP/1.1") (B "secret")]).
Proof.
  assert (Err : forall (os : list (list nat * rop (list nat))), (forall c w r, c = 404%N \/ c = 405%N -> error_choice os c w r = error_choice shop c w r) ->
    forall c, c = 404%N \/ c = 405%N -> forall w r, Tame (CanBeSent 64) true (error_choice os c w r)).
  { intros os E c Hc w r. rewrite (E c w r Hc). eapply tame_may. destruct shop_ordinary as (_ & _ & H). apply H. exact Hc. }
  split; [exact ex_reqs_good|]. split; [|split; [|split; [|split; [|split; [|split; [|split]]]]]].
  - exists (B "/hello/{name}"), POST, greet. eexists. eexists. split; [left; reflexivity|]. split; [vm_compute; reflexivity|]. cbn. auto.
  - intros (p & m & h & t & n & Hi & Ht & Hn). vm_compute in Hi. intuition; match goal with K : _ = _ |- _ => injection K as <- <- <- end; vm_compute in Ht; injection Ht as <-; cbn in Hn; intuition discriminate.
  - split; [|split].
    + intros p m h H. vm_compute in H. intuition; match goal with K : _ = _ |- _ => injection K as <- <- <- end;
        repeat (apply Ta_body; intros ?); apply Ta_ret; intros f Hf; injection Hf as <-; apply Sd_plain; reflexivity.
    + intros p h H. vm_compute in H. destruct H.
    + apply Err. intros c w r [-> | ->]; reflexivity.
  - split; [|split].
    + intros p m h H. vm_compute in H. intuition; match goal with K : _ = _ |- _ => injection K as <- <- <- end;
        repeat (apply Ta_body; intros ?); solve [apply Ta_crash|apply Ta_ret; intros f Hf; injection Hf as <-; apply Sd_plain; reflexivity].
    + intros p h H. vm_compute in H. destruct H.
    + apply Err. intros c w r [-> | ->]; reflexivity.
  - intros addr mu H. cbn [ex_pathless In] in H. intuition discriminate.
  - intros addr mu H. cbn [ex_broken In] in H. intuition discriminate.
  - eexists. split; [apply start_running; vm_compute; reflexivity|]. split; vm_compute; reflexivity.
  - eexists. split; [apply start_running; vm_compute; reflexivity|]. split; vm_compute; reflexivity.
Qed.
