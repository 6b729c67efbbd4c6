(* Lemmas: hijacked connections, malformed heads, upgrades. *)
From Verif Require Import M_Base M_Status M_Method M_Proto M_KeyValue M_Query M_Request M_Parser M_Client M_Body
  M_Response M_Serializer M_Suit S_KeyValue S_Chunk S_Head S_Parser S_Body S_Response S_Conn S_Unversioned
  L_Base L_Head L_Body L_Body2 L_Body3 L_BodyProps L_Response L_Response2 L_Response3 L_Attach L_Conn L_Conn2.

Local Arguments client_unread : simpl never.
Local Arguments write_response : simpl never.

Definition kept_by {CS W} (c : client) (x : hres CS W) : Prop :=
  match x with HDone _ _ _ _ c' | HPanic _ _ c' => kept c c' | HStuck => True end.
Lemma modest_kept_by : forall CS cparse max W (h : hprog W), Modest h -> forall r (b : body CS) c, kept_by c (run_handler cparse max h r b c).
Proof.
  intros CS cparse max W h Hm. induction Hm as [resp0 w0|op k Hk IH|g k Hk IH| |p q k Hp IHp Hq IHq Hk IHk|k Hk IHk]; intros r b c; cbn [run_handler].
  - apply kept_refl.
  - destruct (body_op cparse max op b c) as [[o b1] c1] eqn:E. apply op_kept in E.
    destruct (stops o) as [[|]|] eqn:Es; [exact E|exact I|].
    specialize (IH o r b1 c1). unfold kept_by in *. destruct (run_handler cparse max (k o) r b1 c1); [| |exact I]; eapply kept_trans; eassumption.
  - apply IH.
  - apply kept_refl.
  - specialize (IHp r b c). destruct (run_handler cparse max p r b c) as [resp w r1 b1 c1|r1 b1 c1|]; cbn [kept_by] in IHp; [| |exact I].
    + specialize (IHk resp w r1 b1 c1). unfold kept_by in *. destruct (run_handler cparse max (k resp w) r1 b1 c1); [| |exact I]; eapply kept_trans; eassumption.
    + specialize (IHq r1 b1 c1). destruct (run_handler cparse max q r1 b1 c1) as [resp w r2 b2 c2|r2 b2 c2|]; cbn [kept_by] in IHq; [| |exact I].
      * specialize (IHk resp w r2 b2 c2). unfold kept_by in *. destruct (run_handler cparse max (k resp w) r2 b2 c2); [| |exact I]; (eapply kept_trans; [exact IHp|]; eapply kept_trans; eassumption).
      * cbn [kept_by]. eapply kept_trans; eassumption.
  - apply IHk.
Qed.
Lemma modest_kept : forall CS cparse max W (h : hprog W), Modest h -> forall r (b : body CS) c resp w r' b' c',
  run_handler cparse max h r b c = HDone resp w r' b' c' -> kept c c'.
Proof. intros CS cparse max W h Hm r b c resp w r' b' c' H. pose proof (modest_kept_by CS cparse max W h Hm r b c) as K. rewrite H in K. exact K. Qed.
Lemma close_kept : forall CS cparse max W (on_error : W -> request -> http_error -> hprog W) e (st : conn CS W),
  (forall w r er, Modest (on_error w r er)) -> cl_out (k_client (snd (close_with cparse max on_error e st))) = cl_out (k_client st).
Proof.
  intros CS cparse max W on_error e st Hm. unfold close_with.
  destruct (run_handler _ _ _ _ _ _) as [resp w r b c| |] eqn:E; [|reflexivity|reflexivity].
  apply modest_kept in E; [|apply Hm]. cbn. apply E.
Qed.

(* what an upgrade request is answered with *)
Lemma pre_write_text : forall fbs defs past s p f, Served fbs defs past s -> distinct_names defs -> p <> PUnknown ->
  s_buff (pre_write p f s) = s_buff s ++ response_text (version_of p) (itoa_N (f_code f)) (sent_reason f)
    (f_headers f ++ remaining (past ++ names f) defs ++ [(B "Content-Type", f_ctype f)] ++
     (match f_te f with [] => [] | t => [(B "Transfer-Encoding", t)] end)) [].
Proof.
  intros fbs defs past s p f Hs Hd Hp. apply served_inv in Hs. unfold pre_write. rewrite render_headers_text, render_line_text.
  unfold render_protocol, put, set_defaults. cbn [s_buff s_defaults]. rewrite (si_defaults _ _ _ _ Hs Hd), excl_mark by exact Hd.
  rewrite headers_text_fields by exact Hd. unfold response_text. rewrite (proto_version p Hp). unfold te_fields.
  rewrite ?app_nil_r, <- ?app_assoc. reflexivity.
Qed.
Lemma upgrade_answer : forall CS cparse max W (on_request : W -> request -> hprog W) (on_error : W -> request -> http_error -> hprog W)
    fbs defs past (st : conn CS W) extra resp w r' b' c',
  let r := p_req (k_parser st) in
  Served fbs defs past (k_ser st) -> distinct_names defs -> s_buff (k_ser st) = [] -> k_pre st = new_response ->
  r_proto r = HTTP10 \/ r_proto r = HTTP11 -> r_upgrade r = HTTP10 \/ r_upgrade r = HTTP11 ->
  (forall w r, Modest (on_request w r)) -> (forall w r er, Modest (on_error w r er)) ->
  run_handler cparse max (on_request (k_world st) r) r (body_init (k_body st) r) (client_unread (k_client st) extra) = HDone resp w r' b' c' ->
  r_hijacked r' = false -> f_att (not_nil resp) = None -> write_ok (k_client st) ->
  cl_out (k_client (left_with (on_head cparse max on_request on_error st extra))) =
  cl_out (k_client st) ++
  [response_text (version_of (r_proto r)) (B "101") (B "Switching Protocol")
     ([(B "Connection", B "upgrade"); (B "Upgrade", version_of (r_proto r))] ++
      remaining (past ++ [B "Connection"; B "Upgrade"]) defs ++ [(B "Content-Type", B "text/html")]) [] ++
   response_text (version_of (r_upgrade r)) (itoa_N (f_code (not_nil resp))) (sent_reason (not_nil resp))
     (sent_fields defs (past ++ [B "Connection"; B "Upgrade"]) (not_nil resp))
     (if method_eqb (r_method r') HEAD then [] else f_body (not_nil resp))].
Proof.
  intros CS cparse max W on_request on_error fbs defs past st extra resp w r' b' c' r Hs Hd Hb Hpre Hp Hu Hm1 Hm2 Hr Hj Ha Hw.
  unfold on_head. fold r. replace (wants_switch r) with true by (unfold wants_switch; destruct Hu as [-> | ->]; reflexivity).
  rewrite Hpre.
  change (resp_header (B "Connection") [B "upgrade"] (set_code 101%N new_response)) with (Some (set_rheaders [(B "Connection", B "upgrade")] (set_code 101%N new_response))).
  cbv beta iota.
  set (pre := set_rheaders [(B "Connection", B "upgrade"); (B "Upgrade", version_of (r_proto r))] (set_code 101%N new_response)).
  assert (Eh : resp_header (B "Upgrade") [trim_last (proto_string (r_proto r))] (set_rheaders [(B "Connection", B "upgrade")] (set_code 101%N new_response)) = Some pre).
  { unfold pre. destruct Hp as [-> | ->]; reflexivity. }
  rewrite Eh, Hr, Hj. clear Eh.
  assert (Hpu : r_proto r <> PUnknown) by (destruct Hp as [-> | ->]; discriminate).
  assert (Huu : r_upgrade r <> PUnknown) by (destruct Hu as [-> | ->]; discriminate).
  pose proof (pre_write_text _ _ _ _ (r_proto r) pre Hs Hd Hpu) as E1. rewrite Hb in E1. cbn [app] in E1.
  pose proof (Sv_pre _ _ _ _ (r_proto r) pre Hs) as Hs2.
  pose proof (modest_kept _ _ _ _ _ (Hm1 _ _) _ _ _ _ _ _ _ _ Hr) as [K1 K2].
  assert (Hw2 : write_ok c') by (unfold write_ok in *; rewrite K2; exact Hw).
  destruct (write_response (r_upgrade r) r' (not_nil resp) (pre_write (r_proto r) pre (k_ser st)) c') as [[[res s'] c''] f''] eqn:Ew.
  destruct (plain_shape _ _ _ _ _ _ _ _ _ _ _ _ Hs2 Hd Huu Ha Hw2 Ew) as [E2 _]. rewrite E1, K1 in E2.
  cbn [cl_out client_unread] in E2.
  assert (E3 : forall x : conn CS W, cl_out (k_client x) = cl_out c'' -> cl_out (k_client x) = cl_out (k_client st) ++
    [response_text (version_of (r_proto r)) (B "101") (B "Switching Protocol")
     ([(B "Connection", B "upgrade"); (B "Upgrade", version_of (r_proto r))] ++
      remaining (past ++ [B "Connection"; B "Upgrade"]) defs ++ [(B "Content-Type", B "text/html")]) [] ++
     response_text (version_of (r_upgrade r)) (itoa_N (f_code (not_nil resp))) (sent_reason (not_nil resp))
     (sent_fields defs (past ++ [B "Connection"; B "Upgrade"]) (not_nil resp))
     (if method_eqb (r_method r') HEAD then [] else f_body (not_nil resp))]).
  { intros x ->. rewrite E2. unfold pre. cbn [f_headers set_rheaders f_ctype f_te set_code new_response f_code]. rewrite ?app_nil_r. reflexivity. }
  assert (E4 : forall e (x : conn CS W), cl_out (k_client x) = cl_out c'' -> cl_out (k_client (left_with (inl (close_with cparse max on_error e x)))) = cl_out c'').
  { intros e x E. unfold left_with. pose proof (close_kept _ cparse max _ on_error e x Hm2) as K. destruct (close_with cparse max on_error e x). cbn in K. congruence. }
  apply E3. destruct res; cbn [left_with]; try reflexivity.
  - destruct (request_clear_full cparse max r' b' c'') as [[[res2 r2] b2] c2] eqn:Ec.
    assert (Kc : kept c'' c2). { unfold request_clear_full in Ec. destruct (body_discard cparse max b' c'') as [[x b3] c3] eqn:Ed. apply discard_loop_kept in Ed. destruct x as [[y|]|]; injection Ec as <- <- <- <-; exact Ed. }
    destruct res2 as [[e|]|]; [apply E4| |]; apply Kc.
  - apply E4. reflexivity.
  - apply E4. reflexivity.
Qed.

Section Endings.
Variable CS : Type.
Variable cparse : CS -> bytes -> bool -> CS * (bytes * bytes * option cerr).
Variable encoded : bool -> bytes -> bytes -> Prop.
Variable fresh : CS -> Prop.
Variable inside : CS -> bool -> bytes -> bytes -> Prop.
Hypothesis dec_ok : DecoderOk CS cparse encoded fresh inside.
Variable max : Z.
Hypothesis max_uint : (max < two64)%Z.
Variable cfg : hcfg.
Variables umax kmax vmax fbs : Z.
Variable defs : list entry.
Hypothesis defs_distinct : distinct_names defs.
Variable W : Type.
Variable on_request : W -> request -> hprog W.
Variable on_error : W -> request -> http_error -> hprog W.
Notation conn := (M_Suit.conn CS W).
Notation serve := (M_Suit.serve cparse max cfg on_request on_error).
Notation lim := (cfg_limits cfg umax kmax vmax).

(* ---- malformed heads ---- *)
Lemma sent_known : forall past p r f outs, SentIn defs past p r f outs -> p <> PUnknown -> Sent defs past p r f outs.
Proof. intros past [] r f outs H Hp; [congruence|exact H|exact H|exact H]. Qed.
Lemma aloof_runs : forall ok panics (h : hprog W), Aloof ok panics h -> forall r (b : body CS) c,
  (exists resp w r', aloof_run h r = Some (inl (resp, w, r')) /\ run_handler cparse max h r b c = HDone resp w r' b c /\ ok resp) \/
  (panics = true /\ exists r', aloof_run h r = Some (inr r') /\ run_handler cparse max h r b c = HPanic r' b c).
Proof.
  intros ok panics h Hd. induction Hd as [ok panics resp w Hs|ok|ok panics g k Hk IH|ok panics k Hk IH|ok mid panics p q k Hp IHp Hq IHq Hk IHk]; intros r b c; cbn [aloof_run run_handler].
  - left. exists resp, w, r. auto.
  - right. split; [reflexivity|]. exists r. auto.
  - apply IH.
  - apply IH.
  - destruct (IHp r b c) as [(resp & w & r' & E1 & E2 & E3)|(_ & r' & E1 & E2)]; rewrite E1, E2.
    + apply IHk. exact E3.
    + destruct (IHq r' b c) as [(resp & w & r2 & F1 & F2 & F3)|(F0 & r2 & F1 & F2)]; rewrite F1, F2.
      * apply IHk. exact F3.
      * right. split; [exact F0|]. exists r2. auto.
Qed.
Lemma detached_run : forall (h : hprog W), Detached h -> forall r (b : body CS) c, exists resp w r',
  detached_result h r = Some (resp, w, r') /\ run_handler cparse max h r b c = HDone resp w r' b c /\ f_att (not_nil resp) = None.
Proof.
  intros h Hd r b c. destruct (aloof_runs _ _ h Hd r b c) as [(resp & w & r' & E1 & E2 & E3)|(E & _)]; [|discriminate].
  exists resp, w, r'. unfold detached_result. rewrite E1. split; [reflexivity|]. split; [exact E2|]. destruct resp as [f|]; [apply E3|]; reflexivity.
Qed.
Theorem bad_head : forall past (st : conn) p' e rs,
  Between umax kmax vmax fbs defs fresh past st -> Detached (on_error (k_world st) (p_req p') e) ->
  feed cfg (k_parser st) (reads_of (k_client st)) = (RErr p' e, rs) ->
  exists n resp w' r' out st1, detached_result (on_error (k_world st) (p_req p') e) (p_req p') = Some (resp, w', r') /\
    (forall fuel, (n <= fuel)%nat -> serve fuel st = (EndParse, st1)) /\
    k_world st1 = w' /\ cl_out (k_client st1) = cl_out (k_client st) ++ [out] /\
    SentIn defs past (r_proto r') r' (not_nil resp) [out].
Proof.
  intros past st p' e rs [B1 B2 B3 B4 B5 B6] Hd Hf.
  destruct (serve_bad CS cparse max cfg W on_request on_error _ st p' e rs eq_refl Hf) as (n & c1 & K1 & K2).
  destruct (detached_run _ Hd (p_req p') (k_body st) c1) as (resp & w & r' & D1 & D2 & D3).
  destruct (write_response (r_proto r') r' (not_nil resp) (k_ser st) c1) as [[[res s'] c'] f'] eqn:Ew.
  assert (Hw : writes_ok c1) by (unfold writes_ok in *; destruct K1 as [_ ->]; exact B6).
  assert (E1 : exists out, cl_out c' = cl_out c1 ++ [out] /\ res <> WPanic /\ res <> WStuck).
  { pose proof Ew as H. rewrite plain_write in H by exact D3. injection H as <- _ <- _.
    match goal with |- context [client_write c1 ?d] => destruct (client_writes_ok c1 d Hw) as (c2 & Ec & Eo & _); rewrite Ec end.
    eexists. split; [exact Eo|]. cbn [fst]. unfold close_result. destruct (_ && _); split; discriminate. }
  destruct E1 as (out & E1 & E2 & E3).
  exists (S n), resp, w, r', out, (Conn (set_p_req r' p') s' c' (k_body st) (k_pre st) w).
  split; [exact D1|]. split; [|split; [reflexivity|split]].
  - intros fuel Hfu. replace fuel with (S n + (fuel - S n))%nat by lia. rewrite K2. unfold on_bad_head.
    cbn [k_parser set_k_parser set_k_client k_client k_ser k_body k_pre k_world]. rewrite D2, Ew. destruct res; try reflexivity; congruence.
  - cbn. rewrite E1. destruct K1 as [-> _]. reflexivity.
  - destruct (proto_eqb (r_proto r') PUnknown) eqn:Ep.
    + assert (Hu : r_proto r' = PUnknown) by (destruct (r_proto r'); [reflexivity|discriminate|discriminate|discriminate]). rewrite Hu in *. exists out. split; [reflexivity|].
      destruct (write_response HTTP11 r' (not_nil resp) (k_ser st) c1) as [[[res2 s2] c2] f2] eqn:Ew2. assert (Hne : HTTP11 <> PUnknown) by discriminate.
      destruct (plain_shape _ _ _ _ _ _ _ _ _ _ _ _ B3 defs_distinct Hne D3 (writes_ok_head c1 Hw) Ew2) as [E4 _].
      rewrite plain_write in Ew, Ew2 by exact D3. rewrite B4 in Ew, Ew2, E4. cbn [app] in Ew, Ew2, E4.
      injection Ew as _ _ Ec _. injection Ew2 as _ _ Ec2 _.
      match type of Ec with snd (client_write c1 ?d) = _ => destruct (client_writes_ok c1 d Hw) as (ca & Ea & Oa & _); rewrite Ea in Ec; cbn [snd] in Ec; subst ca;
        rewrite Oa in E1; apply app_inv_head in E1; injection E1 as <- end.
      match type of Ec2 with snd (client_write c1 ?d) = _ => destruct (client_writes_ok c1 d Hw) as (cb & Eb & Ob & _); rewrite Eb in Ec2; cbn [snd] in Ec2; subst cb;
        rewrite Ob in E4; apply app_inv_head in E4 end.
      assert (G : Sent defs past HTTP11 r' (not_nil resp) [plain_text_of HTTP11 r' (not_nil resp) (excl (names (not_nil resp)) (s_defaults (k_ser st)))]) by (rewrite E4; apply St_plain; exact D3).
      exact G.
    + assert (Hp : r_proto r' <> PUnknown) by (intros H; rewrite H in Ep; discriminate).
      destruct (plain_shape _ _ _ _ _ _ _ _ _ _ _ _ B3 defs_distinct Hp D3 (writes_ok_head c1 Hw) Ew) as [E4 _].
      rewrite E1 in E4. apply app_inv_head in E4. rewrite E4, B4. unfold SentIn. destruct (r_proto r'); [congruence| | |]; apply St_plain; exact D3.
Qed.

(* ---- taking over ---- *)
Section TakeView.
Variable Inv : body CS -> client -> bytes -> Prop.
Variable End : body CS -> client -> Prop.
Variable more : bytes -> Prop.
Hypothesis step : forall b c left, Inv b c left -> exists d e b' c',
  retrieve cparse max b c = ((d, e), b', c') /\
  bd_full b' = bd_full b /\ bd_pending b' = bd_pending b /\ bd_error b' = bd_error b /\
  ((e = None /\ exists left', left = d ++ left' /\ more left' /\ Inv b' c' left' /\ (csize c' < csize c)%nat) \/
   (e = Some BEof /\ d = left /\ End b' c')).
Hypothesis inv_eof : forall b c left, Inv b c left -> bd_eof b = false.
Hypothesis end_eof : forall b c, End b c -> bd_eof b = true.
Hypothesis inv_full : forall b c left f cap, Inv b c left -> Inv (set_full f cap b) c left.
Hypothesis end_full : forall b c f cap, End b c -> End (set_full f cap b) c.
Hypothesis inv_stash : forall b c left p e, Inv b c left -> Inv (set_stash p e b) c left.
Hypothesis end_stash : forall b c p e, End b c -> End (set_stash p e b) c.
Hypothesis inv_alloc : forall b c left, Inv b c left -> bd_chunked b = true \/ (bd_clen b <= max_alloc)%Z.
Lemma takeover_run : forall k (h : hprog W), Takeover k h -> forall r b c v, Rep CS Inv End b c v -> r_hijacked r = false ->
  exists r' b' c', run_handler cparse max h r b c = run_handler cparse max (k None) (set_hijacked true r') b' c' /\ End b' c' /\ kept c c'.
Proof.
  intros k h Ht. induction Ht as [|op h Hk IH|g h Hg Hk IH]; intros r b c v HR Hj.
  - destruct (rep_discard CS cparse max Inv End more step inv_eof end_eof inv_full end_full inv_stash end_stash inv_alloc _ _ _ HR)
      as (b' & c' & D1 & D2 & D3).
    exists r, b', c'. cbn [run_handler]. rewrite D1. auto.
  - destruct (answer_ok CS cparse max Inv End more step inv_eof end_eof inv_full end_full inv_stash end_stash inv_alloc op b c v HR)
      as (o & b1 & c1 & v1 & H1 & H2 & H3 & H4).
    destruct (IH o r b1 c1 v1 H3 Hj) as (r' & b' & c' & K1 & K2 & K3). exists r', b', c'. cbn [run_handler]. rewrite H1.
    assert (E : stops o = None) by (destruct o as [[]| | ? [[]|] | []]; cbn in H4 |- *; congruence || reflexivity).
    rewrite E. split; [exact K1|]. split; [exact K2|]. eapply kept_trans; [|exact K3]. eapply op_kept. exact H1.
  - destruct (Hg r) as (G1 & _). destruct (IH (g r) b c v HR) as (r' & b' & c' & K); [congruence|]. exists r', b', c'. exact K.
Qed.
End TakeView.

Theorem hijacked : forall past (st : conn) q rest k,
  Between umax kmax vmax fbs defs fresh past st -> GoodRequest encoded lim max q -> stream (k_client st) = wire q ++ rest ->
  (forall r, Shows (q_head q) r -> Takeover k (on_request (k_world st) r)) ->
  exists n r b c, stream c = rest /\ cl_out c = cl_out (k_client st) /\ r_hijacked r = true /\
    forall resp w r' b' c', run_handler cparse max (k None) r b c = HDone resp w r' b' c' -> r_hijacked r' = true ->
    forall fuel, (n <= fuel)%nat -> exists st1, serve fuel st = (EndHijack, st1) /\ k_client st1 = c' /\ k_world st1 = w.
Proof.
  intros past st q rest k [B1 B2 B3 B4 B5 B6] [G1 G2 G3 G4 G5] Hs Ht.
  unfold wire in Hs. rewrite <- app_assoc in Hs. rewrite <- reads_concat in Hs.
  destruct (segmentation cfg umax kmax vmax _ _ _ _ B1 G1 G2 Hs) as (p' & extra & rs & F1 & F2 & F3 & F4 & F5).
  destruct (serve_done CS cparse max cfg W on_request on_error _ st p' extra rs eq_refl F1) as (n & c1 & R1 & R2 & R3 & R4).
  destruct (shows cfg umax kmax vmax _ _ G1 G2 B2) as [Sh Qf]. rewrite <- F5 in Sh, Qf.
  set (r := p_req p') in *. pose proof Sh as (r0 & M & V & Hj).
  assert (Hup : r_upgrade r = PUnknown). { rewrite (sv_upgrade _ _ V), (mn_upgrade _ _ _ M), G3. reflexivity. }
  assert (Hch : enc_chunked (r_encoding r) = is_chunked (q_head q)). { rewrite (sv_encoding _ _ V), (mn_chunked _ _ _ M). reflexivity. }
  assert (Htr : enc_trailer (r_encoding r) = has_trailer (q_head q)). { rewrite (sv_encoding _ _ V), (mn_trailer _ _ _ M). apply orb_false_r. }
  assert (Hcl : r_content_length r = announced (q_head q)). { rewrite (sv_clen _ _ V), (mn_clen _ _ _ M). reflexivity. }
  assert (Hst : stream (client_unread c1 extra) = q_wire q ++ rest).
  { rewrite stream_unread by exact R2. rewrite <- (reads_concat c1), R1. exact F2. }
  destruct (init_stash CS (k_body st) r) as [Hp He].
  assert (K : exists r' b' c', run_handler cparse max (on_request (k_world st) r) r (body_init (k_body st) r) (client_unread c1 extra) =
     run_handler cparse max (k None) (set_hijacked true r') b' c' /\ stream c' = rest /\ kept (client_unread c1 extra) c').
  { destruct (is_chunked (q_head q)) eqn:Ec.
    - destruct (takeover_run (CInv CS inside max rest) (CEnd CS fresh rest) any_text
        (L_Body2.chunked_step CS cparse encoded fresh inside dec_ok max max_uint rest) (c_inv_eof CS inside max rest) (c_end_eof CS fresh rest)
        (c_inv_full CS inside max rest) (c_end_full CS fresh rest) (c_inv_stash CS inside max rest) (c_end_stash CS fresh rest) (c_inv_alloc CS inside max rest)
        k _ (Ht r Sh) r (body_init (k_body st) r) (client_unread c1 extra) (fresh_view (q_text q))) as (r' & b' & c' & K1 & K2 & K3).
      + constructor; cbn; auto; try discriminate. left. split; [reflexivity|]. eapply c_init; eauto. rewrite Htr. exact G5.
      + exact Hj.
      + exists r', b', c'. split; [exact K1|]. split; [apply K2|exact K3].
    - destruct G5 as (Gw & Ga & Gm). rewrite Gw in Hst.
      destruct (takeover_run (PInv CS max rest (bd_cs (k_body st))) (PEnd CS rest (bd_cs (k_body st))) not_done
        (L_Body2.plain_step CS cparse max rest _) (p_inv_eof CS max rest _) (p_end_eof CS rest _)
        (p_inv_full CS max rest _) (p_end_full CS rest _) (p_inv_stash CS max rest _) (p_end_stash CS rest _) (p_inv_alloc CS max rest _)
        k _ (Ht r Sh) r (body_init (k_body st) r) (client_unread c1 extra) (fresh_view (q_text q))) as (r' & b' & c' & K1 & K2 & K3).
      + constructor; cbn; auto; try discriminate. left. split; [reflexivity|]. apply p_init; auto. congruence.
      + exact Hj.
      + exists r', b', c'. split; [exact K1|]. split; [apply K2|exact K3]. }
  destruct K as (r' & b' & c' & K1 & K2 & K3).
  exists (S n), (set_hijacked true r'), b', c'. split; [exact K2|].
  split. { destruct K3 as [-> _]. unfold client_unread. cbn [cl_out]. apply R3. }
  split; [reflexivity|]. intros resp w r2 b2 c2 Hr Hj2 fuel Hfu.
  replace fuel with (S n + (fuel - S n))%nat by lia.
  exists (Conn (set_p_req r2 p') (k_ser st) c2 b2 (k_pre st) w). split; [|split; reflexivity]. rewrite R4.
  unfold on_head. cbn [k_parser set_k_parser set_k_client k_client k_ser k_body k_pre k_world]. fold r. unfold wants_switch. rewrite Hup.
  rewrite K1, Hr, Hj2. reflexivity.
Qed.
End Endings.

(* reading on: what a hijacker reads is the stream, in order *)
Lemma reads_stream : forall n c ds ok c', take_reads n c = (ds, ok, c') ->
  stream c = concat ds ++ (if ok then stream c' else []).
Proof.
  induction n as [|n IH]; intros c ds ok c' H; cbn [take_reads] in H.
  - injection H as <- <- <-. reflexivity.
  - destruct (client_read c) as [[d [e|]] c1] eqn:E.
    + injection H as <- <- <-. unfold client_read in E. unfold stream. destruct (cl_pending c); [|discriminate].
      destruct (cl_net c) as [|[d0 [e0|]] net]; try reflexivity. discriminate.
    + destruct (take_reads n c1) as [[ds1 ok1] c2] eqn:E1. injection H as <- <- <-. apply IH in E1.
      cbn [concat]. rewrite <- app_assoc, <- E1. unfold client_read in E. unfold stream. destruct (cl_pending c) as [|x p].
      * destruct (cl_net c) as [|[d0 [e0|]] net]; try discriminate. injection E as <- <-. reflexivity.
      * injection E as <- <-. reflexivity.
Qed.
Lemma new_between : forall CS W (fresh : CS -> Prop) umax kmax vmax fbs defs enc cs c (w : W), fresh cs -> writes_ok c ->
  Between umax kmax vmax fbs defs fresh [] (new_conn umax kmax vmax fbs defs enc cs c w).
Proof.
  intros CS W fresh umax kmax vmax fbs defs enc cs c w Hf Hw. constructor; cbn; auto.
  - repeat split.
  - left. exists enc. reflexivity.
  - apply Sv_new.
Qed.
