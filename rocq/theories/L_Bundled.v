(* Lemmas about the bundled middlewares. *)
From Verif Require Import M_Base M_Status M_Method M_Proto M_KeyValue M_Query M_Escape M_Request M_Parser M_Client M_Body
  M_Response M_Serializer M_Suit M_Router M_Middleware M_Bundled S_KeyValue S_Chunk S_Body S_Static S_Virtual S_Router S_Conn S_Bundled S_Values
  L_Base L_KeyValue L_Values L_Virtual L_Response2 L_Body2 L_Chunk L_ConnProps P_Parser.

(* ---- HTTPSOnly ---- *)
Lemma first_host : forall r, kv_value (r_headers r) (B "host") = hd [] (hosts_of r).
Proof.
  intros r. unfold kv_value, kv_value_or, kv_get, hosts_of, all_values.
  induction (kv_pairs (r_headers r)) as [|[k v] l IH]; [reflexivity|]. cbn [pairs_get filter fst].
  destruct (equal_fold (B "host") k) eqn:E.
  - apply same_key_fold in E. unfold same_keyb. destruct (list_eq_dec Byte.byte_eq_dec (map lower k) (map lower (B "host"))) as [_|N]; [reflexivity|]. exfalso. apply N. exact E.
  - unfold same_keyb at 1. destruct (list_eq_dec Byte.byte_eq_dec (map lower k) (map lower (B "host"))) as [Y|N]; [|exact IH]. exfalso.
    assert (K : equal_fold (B "host") k = true) by (apply same_key_fold; exact Y). congruence.
Qed.
Lemma names_host : forall h name, NamesHost h name -> remove_port h = name.
Proof.
  intros h name (Hn & Hc & [->|(port & ->)]); unfold remove_port.
  - rewrite (proj2 (cut_none name x3a) Hc). reflexivity.
  - rewrite (proj2 (cut_some (name ++ x3a :: port) x3a name port)); [reflexivity|]. split; [reflexivity|exact Hc].
Qed.
Theorem https_plain : forall W port (next : handler W) w r h hs name, env_encryption (r_env r) = enc_plain -> hosts_of r = h :: hs -> NamesHost h name ->
  https_only_mw [] port next w r = HRet (Some (answer_with 301%N (B "Location") (B "https://" ++ name ++ B ":" ++ port ++ asked_path r))) w.
Proof.
  intros W port next w r h hs name He Hh Hn. unfold https_only_mw, https_only. rewrite He. cbn [N.eqb enc_plain negb]. rewrite first_host, Hh. cbn [hd].
  rewrite (names_host h name Hn). destruct Hn as (Hn & _). destruct name as [|a name]; [contradiction|]. reflexivity.
Qed.
Theorem https_fixed : forall W host port (next : handler W) w r, env_encryption (r_env r) = enc_plain -> host <> [] ->
  https_only_mw host port next w r = HRet (Some (answer_with 301%N (B "Location") (B "https://" ++ host ++ B ":" ++ port ++ asked_path r))) w.
Proof.
  intros W host port next w r He Hh. unfold https_only_mw, https_only. rewrite He. cbn [N.eqb enc_plain negb]. destruct host; [contradiction|]. reflexivity.
Qed.
Theorem https_no_host : forall W port (next : handler W) w r, env_encryption (r_env r) = enc_plain -> hosts_of r = [] ->
  https_only_mw [] port next w r = HRet (Some (Fields 400%N [] (B "text/html") [] [] (B "no Host header") [] None)) w.
Proof.
  intros W port next w r He Hh. unfold https_only_mw, https_only. rewrite He. cbn [N.eqb enc_plain negb]. rewrite first_host, Hh. reflexivity.
Qed.
Theorem https_secure : forall W host port (next : handler W) w r, env_encryption (r_env r) <> enc_plain -> https_only_mw host port next w r = next w r.
Proof.
  intros W host port next w r He. unfold https_only_mw, https_only. destruct (N.eqb_spec (env_encryption (r_env r)) enc_plain); [contradiction|reflexivity].
Qed.

(* ---- calling the next handler ---- *)
Section Run.
Variable CS : Type.
Variable cparse : CS -> bytes -> bool -> CS * (bytes * bytes * option cerr).
Variable max : Z.
Notation run := (run_handler cparse max).
Lemma run_bind : forall W (p : hprog W) k r (b : body CS) c,
  run (hbind p k) r b c = match run p r b c with HDone resp w r' b' c' => run (k resp w) r' b' c' | HPanic r' b' c' => HPanic r' b' c' | HStuck => HStuck end.
Proof.
  intros W p k. induction p as [resp w|op c0 IH|g c0 IH|c0 IH|c0 IH|d c0 IH| |p IHp q IHq c0 IH|c0 IH]; intros r b c; cbn [hbind run_handler].
  - reflexivity.
  - destruct (body_op cparse max op b c) as [[o b'] c']. destruct (stops o) as [[|]|]; [reflexivity|reflexivity|apply IH].
  - apply IH.
  - destruct (body_discard cparse max b c) as [[[[e|]|] b'] c']; [apply IH|apply IH|reflexivity].
  - destruct (client_read c) as [x c']. apply IH.
  - destruct (client_write c d) as [ok c']. apply IH.
  - reflexivity.
  - destruct (run p r b c) as [resp w r' b' c'|r' b' c'|]; [apply IH| |reflexivity].
    destruct (run q r' b' c') as [resp w r2 b2 c2|r2 b2 c2|]; [apply IH|reflexivity|reflexivity].
  - apply IH.
Qed.

Theorem nil_crashes : forall W custom loggers (next : handler W) w r (b : body CS) c w' r' b' c',
  run (next w r) r b c = HDone None w' r' b' c' ->
  run (server_header custom next w r) r b c = HPanic r' b' c' /\ run (log_requests loggers next w r) r b c = HPanic r' b' c'.
Proof.
  intros W custom loggers next w r b c w' r' b' c' H. unfold server_header, log_requests. rewrite !run_bind, H. split; reflexivity.
Qed.
Lemma join_spaced : forall l t, Spaced l t -> join_spaces l = t.
Proof. intros l t H. induction H as [|s|s s' l t H IH]; [reflexivity|reflexivity|]. cbn [join_spaces] in *. rewrite IH. reflexivity. Qed.
Theorem server_added : forall W custom value text (next : handler W) w r (b : body CS) c f w' r' b' c',
  Spaced custom text -> value = (match text with [] => B "indigo" | _ => text end) -> run (next w r) r b c = HDone (Some f) w' r' b' c' ->
  run (server_header custom next w r) r b c = HDone (Some (with_header (B "Server") value f)) w' r' b' c'.
Proof.
  intros W custom value text next w r b c f w' r' b' c' HS -> H. unfold server_header. rewrite run_bind, H, (join_spaced custom text HS). destruct text; reflexivity.
Qed.
Lemma told_fold : forall W (loggers : list (bytes -> W -> W)) line w, fold_left (fun v l => l line v) loggers w = told_all loggers line w.
Proof. intros W loggers line. induction loggers as [|l ls IH]; intros w; [reflexivity|]. cbn. apply IH. Qed.
Theorem logged : forall W loggers (next : handler W) w r (b : body CS) c f w' r' b' c', run (next w r) r b c = HDone (Some f) w' r' b' c' -> f_code f <> 439%N ->
  run (log_requests loggers next w r) r b c =
  HDone (Some f) (told_all loggers (method_string (r_method r') ++ B " " ++ escape (r_path r') ++ B " " ++ itoa_N (f_code f)) (fst w'), snd w') r' b' c'.
Proof.
  intros W loggers next w r b c f w' r' b' c' H Hc. unfold log_requests. rewrite run_bind, H. destruct (N.eqb_spec (f_code f) 439); [contradiction|]. cbn [run_handler]. rewrite told_fold. reflexivity.
Qed.
Theorem logged_close : forall W loggers (next : handler W) w r (b : body CS) c f w' r' b' c', run (next w r) r b c = HDone (Some f) w' r' b' c' -> f_code f = 439%N ->
  run (log_requests loggers next w r) r b c = HDone (Some f) w' r' b' c'.
Proof. intros W loggers next w r b c f w' r' b' c' H Hc. unfold log_requests. rewrite run_bind, H, Hc. reflexivity. Qed.
Theorem not_reached : forall W custom loggers (next : handler W) w r (b : body CS) c,
  (forall r' b' c', run (next w r) r b c = HPanic r' b' c' -> run (server_header custom next w r) r b c = HPanic r' b' c' /\ run (log_requests loggers next w r) r b c = HPanic r' b' c') /\
  (run (next w r) r b c = HStuck -> run (server_header custom next w r) r b c = HStuck /\ run (log_requests loggers next w r) r b c = HStuck).
Proof.
  intros W custom loggers next w r b c. unfold server_header, log_requests. rewrite !run_bind. split; [intros r' b' c' H|intros H]; rewrite H; split; reflexivity.
Qed.
Theorem context_given : forall W ctx (next : handler W) w r (b : body CS) c, run (custom_context ctx next w r) r b c = run (next w (set_ctx ctx r)) (set_ctx ctx r) b c.
Proof. reflexivity. Qed.
Theorem redirected : forall W from to (next : handler W) w r, r_path r = from -> redirect from to next w r = HRet (Some (answer_with 307%N (B "Location") to)) w.
Proof. intros W from to next w r <-. unfold redirect. rewrite beqb_refl. reflexivity. Qed.
Theorem not_redirected : forall W from to (next : handler W) w r, r_path r <> from -> redirect from to next w r = next w r.
Proof. intros W from to next w r H. unfold redirect. destruct (beqb (r_path r) from) eqn:E; [|reflexivity]. apply beqb_eq in E. contradiction. Qed.

(* ---- Recover ---- *)
Theorem recovered : forall W (next : handler W) w r (b : body CS) c,
  run (recovering next w r) r b c =
  match run (next w r) r b c with
  | HDone resp w' r' b' c' => HDone resp w' r' b' c'
  | HPanic r' b' c' => HDone (Some internal_error) w r' b' c'
  | HStuck => HStuck
  end.
Proof. intros W next w r b c. unfold recovering. cbn [run_handler]. destruct (run (next w r) r b c); reflexivity. Qed.
Theorem never_panics : forall W ms (h : handler W) w r (b : body CS) c r' b' c', run (behind (recovering :: ms) h w r) r b c <> HPanic r' b' c'.
Proof. intros W ms h w r b c r' b' c'. change (behind (recovering :: ms) h w r) with (recovering (behind ms h) w r). rewrite recovered. destruct (run (behind ms h w r) r b c); discriminate. Qed.
Theorem crash_not_recovered : forall W ms (h : handler W) w r (b : body CS) c r' b' c', run (behind ms h w r) r b c = HDone None w r' b' c' ->
  run (behind (log_requests [] :: recovering :: ms) h w r) r b c = HPanic r' b' c'.
Proof.
  intros W ms h w r b c r' b' c' H. change (behind (log_requests [] :: recovering :: ms) h w r) with (log_requests [] (recovering (behind ms h)) w r).
  unfold log_requests. rewrite run_bind, recovered, H. reflexivity.
Qed.
(* with Recover in front, a connection ends with a panic only while writing *)
Theorem head_no_panic : forall W (h : handler W) ms (on_error : world W -> request -> http_error -> hprog (world W)) (st : conn CS (world W)) extra st',
  (forall w r e r0 (b : body CS) c r' b' c', run (on_error w r e) r0 b c <> HPanic r' b' c') ->
  on_head cparse max (behind (recovering :: ms) h) on_error st extra = inl (EndPanic, st') ->
  exists version r f s c, fst (fst (fst (write_response version r f s c))) = WPanic.
Proof.
  intros W h ms on_error st extra st' He H. unfold on_head in H.
  match type of H with context [if wants_switch ?r then ?a else ?b] => destruct (if wants_switch r then a else b) as [[s pre] version] end.
  match type of H with context [run ?p ?r ?b ?c] => destruct (run p r b c) as [resp w r' b' c'|r' b' c'|] eqn:E end; [|exfalso; exact (never_panics _ _ _ _ _ _ _ _ _ _ E)|discriminate].
  destruct (r_hijacked r'); [discriminate|].
  destruct (write_response version r' (not_nil resp) s c') as [[[res s'] c''] f'] eqn:Ew.
  assert (Hc : forall e st0, fst (close_with cparse max on_error e st0) = EndPanic -> e = EndPanic).
  { intros e st0. unfold close_with. destruct (run (on_error _ _ _) _ _ _) eqn:Er; cbn; [auto| |discriminate]. intros _. exfalso. exact (He _ _ _ _ _ _ _ _ _ Er). }
  destruct res.
  - destruct (request_clear_full cparse max r' b' c'') as [[[res2 r2] b2] c2]. destruct res2 as [[e|]|]; try discriminate.
    injection H as H. apply (f_equal fst) in H. apply Hc in H. discriminate.
  - injection H as H. apply (f_equal fst) in H. apply Hc in H. discriminate.
  - injection H as H. apply (f_equal fst) in H. apply Hc in H. discriminate.
  - exists version, r', (not_nil resp), s, c'. rewrite Ew. reflexivity.
  - discriminate.
Qed.
End Run.
(* handlers that may panic become ordinary ones *)
Theorem recovering_ordinary : forall W fbs (next : handler W), (forall w r, Tame (CanBeSent fbs) true (next w r)) -> forall w r, Ordinary fbs (recovering next w r).
Proof.
  intros W fbs next H w r. unfold recovering, Ordinary. apply (Ta_try (CanBeSent fbs) (CanBeSent fbs)).
  - apply H.
  - apply Ta_ret. intros f Hf. injection Hf as <-. apply Sd_plain. reflexivity.
  - intros resp w' Hr. apply Ta_ret. exact Hr.
Qed.
(* so do handlers behind the other middlewares, as long as they return a response *)
Lemma tame_weaken : forall W (ok ok' : option fields -> Prop) panics (p : hprog W), Tame ok panics p -> (forall x, ok x -> ok' x) -> Tame ok' panics p.
Proof.
  intros W ok ok' panics p H. revert ok'. induction H as [ok panics resp w Hs|ok|ok panics op k Hk IH|ok panics g k Hg Hk IH|ok panics k Hk IH|ok mid panics p q k Hp IHp Hq IHq Hk IHk]; intros ok' Hi.
  - apply Ta_ret. auto.
  - apply Ta_crash.
  - apply Ta_body. auto.
  - apply Ta_update; auto.
  - apply Ta_look. auto.
  - apply (Ta_try ok' mid); auto.
Qed.
Lemma tame_bind : forall W (ok mid : option fields -> Prop) panics (p : hprog W) k, Tame mid panics p -> (forall resp w, mid resp -> Tame ok panics (k resp w)) -> Tame ok panics (hbind p k).
Proof.
  intros W ok mid panics p k H. induction H as [mid panics resp w Hs|mid|mid panics op k0 Hk0 IH|mid panics g k0 Hg Hk0 IH|mid panics k0 Hk0 IH|mid mid1 panics p q k0 Hp IHp Hq IHq Hk0 IHk]; intros Hk; cbn [hbind].
  - apply Hk. exact Hs.
  - apply Ta_crash.
  - apply Ta_body. intros o. apply IH. exact Hk.
  - apply Ta_update; [exact Hg|]. apply IH. exact Hk.
  - apply Ta_look. intros r. apply IH. exact Hk.
  - apply (Ta_try ok mid1); [exact Hp|exact Hq|]. intros resp w Hm. apply IHk; assumption.
Qed.
Theorem bundled_tame : forall W fbs panics custom loggers (next : handler W), (forall w r, Tame (Given fbs) panics (next w r)) ->
  (forall w r, Tame (Given fbs) panics (server_header custom next w r)) /\ (forall w r, Tame (Given fbs) panics (log_requests loggers next w r)).
Proof.
  intros W fbs panics custom loggers next H. split; intros w r.
  - unfold server_header. apply (tame_bind (world W) (Given fbs) (Given fbs)); [apply H|]. intros resp w' (f & -> & Hf). apply Ta_ret. eexists. split; [reflexivity|].
    destruct Hf as [Hf|a pieces more Hf Hs He Hl|a pieces lst more Hf Hs He Hl]; [apply Sd_plain; exact Hf|eapply Sd_sized; eassumption|eapply Sd_stream; eassumption].
  - unfold log_requests. apply (tame_bind (world W) (Given fbs) (Given fbs)); [apply H|]. intros resp w' (f & -> & Hf).
    destruct (f_code f =? 439)%N; [apply Ta_ret; exists f; auto|]. apply Ta_look. intros r'. apply Ta_ret. exists f. auto.
Qed.
Lemma log_line_safe : forall r c x, In x (log_line r c) -> ascii_printable x = true \/ cont x = true.
Proof.
  intros r c x H. unfold log_line in H. rewrite !in_app_iff in H. destruct H as [H|[H|[H|[H|H]]]].
  - left. destruct (r_method r); revert x H; apply Forall_forall; vm_compute; repeat constructor.
  - left. cbn in H. destruct H as [<-|[]]. reflexivity.
  - exact (escape_safe _ _ H).
  - left. cbn in H. destruct H as [<-|[]]. reflexivity.
  - left. assert (K : Forall (fun x => is_digit x = true) (itoa_N c)) by (apply digits_aux_digit; constructor).
    rewrite Forall_forall in K. specialize (K x H). revert K. clear. destruct x; vm_compute; congruence.
Qed.
(* ---- an example ---- *)
(* panics at /a, after it read the body; echoes otherwise *)
Definition ex_fragile (w : world log) (r : request) : hprog (world log) :=
  HBody OBytes (fun o =>
    if beqb (r_path r) (B "/a") then HCrash
    else HRet (Some (set_rbody (out_data o) new_response)) (fst w ++ [(r_path r, out_data o)], snd w)).
Definition ex_told (w : world log) (r : request) (e : http_error) : hprog (world log) :=
  HRet (Some (set_rbody (he_msg e) (set_code (he_code e) new_response))) (fst w ++ [(B "error", r_path r)], snd w).
Definition ex_run (h : handler log) (net : list bytes) : ending * conn kstate (world log) :=
  serve ref_parse 100 ex_cfg h ex_told 50
    (new_conn 100 100 100 64 [] enc_plain (KSize 0 false) (new_client (map (fun d => (d, None)) net) []) ([], [])).

Lemma log_line_bytes : forall r c x, In x (log_line r c) -> printable x \/ utf8_tail x.
Proof. intros r c x H. rewrite <- printable_iff, <- tail_iff. exact (log_line_safe r c x H). Qed.
