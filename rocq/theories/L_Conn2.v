(* Lemmas: whole connections. *)
From Verif Require Import M_Base M_Status M_Method M_Proto M_KeyValue M_Query M_Request M_Parser M_Client M_Body
  M_Response M_Serializer M_Suit S_KeyValue S_Chunk S_Head S_Parser S_Body S_Response S_Conn
  L_Base L_Head L_Body L_Body2 L_Body3 L_BodyProps L_Response L_Response2 L_Response3 L_Attach L_Conn.

Local Arguments client_unread : simpl never.
Local Arguments write_response : simpl never.

(* ---- sending ---- *)
Definition same_input (c c' : client) : Prop := cl_net c' = cl_net c /\ cl_pending c' = cl_pending c.
Lemma same_input_refl : forall c, same_input c c. Proof. split; reflexivity. Qed.
Lemma same_input_trans : forall a b c, same_input a b -> same_input b c -> same_input a c.
Proof. intros a b c [? ?] [? ?]. split; congruence. Qed.
Lemma write_input : forall c d ok c', client_write c d = (ok, c') ->
  same_input c c' /\ (writes_ok c -> writes_ok c').
Proof.
  intros c d ok c' H. unfold client_write in H. destruct (cl_wres c) as [|[k|] w] eqn:E; injection H as <- <-; (split; [split; reflexivity|]);
    unfold writes_ok; cbn; intros K; rewrite E in K; inversion K; subst; auto; discriminate.
Qed.
Lemma plain_input : forall ev mem c w m c' ev', write_plain ev mem c = (w, m, c', ev') -> same_input c c' /\ (writes_ok c -> writes_ok c').
Proof.
  induction ev as [|[d e] ev IH]; intros mem c w m c' ev' H; cbn [write_plain] in H.
  - injection H as <- <- <- <-. split; [apply same_input_refl|auto].
  - destruct e as [[|]|]; try (injection H as <- <- <- <-; split; [apply same_input_refl|auto]).
    destruct (_ <? _)%nat; [injection H as <- <- <- <-; split; [apply same_input_refl|auto]|].
    destruct (client_write c _) as [ok c1] eqn:E. apply write_input in E. destruct E as [E1 E2]. destruct ok.
    + apply IH in H. destruct H as [H1 H2]. split; [eapply same_input_trans; eassumption|auto].
    + injection H as <- <- <- <-. auto.
Qed.
Lemma chunked_input : forall ev mem c w m c' ev', write_chunked ev mem c = (w, m, c', ev') -> same_input c c' /\ (writes_ok c -> writes_ok c').
Proof.
  induction ev as [|[d e] ev IH]; intros mem c w m c' ev' H; cbn [write_chunked] in H.
  - injection H as <- <- <- <-. split; [apply same_input_refl|auto].
  - assert (Aft : forall mm cc, match e with None => write_chunked ev mm cc
                   | Some REof => let '(ok, c) := client_write cc chunked_finalizer in ((if ok then WOk else WNet), mm, c, ev)
                   | Some RFail => (WClose, mm, cc, ev) end = (w, m, c', ev') -> same_input cc c' /\ (writes_ok cc -> writes_ok c')).
    { intros mm cc X. destruct e as [[|]|].
      - destruct (client_write cc _) as [ok c1] eqn:E. injection X as <- <- <- <-. eapply write_input. exact E.
      - injection X as <- <- <- <-. split; [apply same_input_refl|auto].
      - eapply IH. exact X. }
    destruct (0 <? List.length d)%nat; [|apply Aft in H; exact H].
    destruct (_ <? _)%nat; [injection H as <- <- <- <-; split; [apply same_input_refl|auto]|].
    destruct (_ <? _)%nat; [injection H as <- <- <- <-; split; [apply same_input_refl|auto]|].
    destruct (client_write c _) as [ok c1] eqn:E. apply write_input in E. destruct E as [E1 E2]. destruct ok.
    + apply Aft in H. destruct H as [H1 H2]. split; [eapply same_input_trans; eassumption|auto].
    + injection H as <- <- <- <-. auto.
Qed.
Lemma write_response_input : forall p r f s c res s' c' f', write_response p r f s c = (res, s', c', f') ->
  same_input c c' /\ (writes_ok c -> writes_ok c').
Proof.
  intros p r f s c res s' c' f' H. unfold write_response in H. destruct (f_att f) as [a|].
  - destruct (send_attachment _ _ _ _ _) as [[[w s1] c1] f1] eqn:E. injection H as <- <- <- <-.
    unfold send_attachment in E. cbv zeta in E.
    match type of E with context [client_write c ?d] => destruct (client_write c d) as [ok c2] eqn:Ew end.
    apply write_input in Ew. destruct Ew as [E1 E2]. destruct ok; cbn [negb] in E; [|injection E as <- <- <- <-; auto].
    destruct (method_eqb (r_method r) HEAD); [injection E as <- <- <- <-; auto|].
    destruct (0 <? at_size a)%Z.
    + match type of E with context [write_plain ?x ?y ?z] => destruct (write_plain x y z) as [[[w2 m2] c3] ev3] eqn:Ep end.
      apply plain_input in Ep. destruct Ep as [P1 P2].
      destruct w2; injection E as <- <- <- <-; (split; [eapply same_input_trans; eassumption|auto]).
    + match type of E with context [write_chunked ?x ?y ?z] => destruct (write_chunked x y z) as [[[w2 m2] c3] ev3] eqn:Ep end.
      apply chunked_input in Ep. destruct Ep as [P1 P2].
      destruct w2; injection E as <- <- <- <-; (split; [eapply same_input_trans; eassumption|auto]).
  - cbv zeta in H. match type of H with context [client_write c ?d] => destruct (client_write c d) as [ok c2] eqn:Ew end.
    apply write_input in Ew. injection H as <- <- <- <-. exact Ew.
Qed.

Lemma head_attachment : forall fbs defs past s p r f a c res s' c' f',
  Served fbs defs past s -> distinct_names defs -> p <> PUnknown -> f_att f = Some a -> r_method r = HEAD -> writes_ok c ->
  write_response p r f s c = (res, s', c', f') ->
  res = WOk /\ cl_out c' = cl_out c ++
      [s_buff s ++ response_text (version_of p) (itoa_N (f_code f)) (sent_reason f) (attachment_fields defs past f a) []].
Proof.
  intros fbs defs past s p r f a c res s' c' f' Hs Hd Hp Ha Hm Hw H.
  destruct (att_head_text fbs defs past s p f a Hs Hd Hp) as (E1 & _).
  unfold write_response in H. rewrite Ha in H. unfold send_attachment in H. cbv zeta in *.
  set (s1 := put CRLF _) in *. rewrite E1 in H.
  destruct (client_writes_ok c (s_buff s ++ response_text (version_of p) (itoa_N (f_code f)) (sent_reason f) (attachment_fields defs past f a) []) Hw)
    as (c1 & Ec & Eo & _). rewrite Ec in H. cbn [negb] in H. rewrite Hm in H. cbn [method_eqb] in H.
  injection H as <- <- <- <-. split; [reflexivity|exact Eo].
Qed.

Lemma write_sent : forall fbs defs past s p r f c res s' c' f',
  Served fbs defs past s -> distinct_names defs -> p <> PUnknown -> s_buff s = [] -> writes_ok c -> Sendable fbs f -> r_upgrade r = PUnknown ->
  write_response p r f s c = (res, s', c', f') ->
  exists out, Sent defs past p r f out /\ cl_out c' = cl_out c ++ out /\
    ((res = WOk /\ S_Conn.stays_open p r f) \/ (res = WClose /\ ~ S_Conn.stays_open p r f)).
Proof.
  intros fbs defs past s p r f c res s' c' f' Hs Hd Hp Hb Hw Hsd Hu H.
  assert (Hatt : forall a, f_att f = Some a -> exists out, Sent defs past p r f out /\ cl_out c' = cl_out c ++ out /\ res = WOk).
  { intros a Ha. destruct (method_eqb (r_method r) HEAD) eqn:Em.
    - assert (Hm : r_method r = HEAD) by (destruct (r_method r); try discriminate; reflexivity).
      destruct (head_attachment _ _ _ _ _ _ _ _ _ _ _ _ _ Hs Hd Hp Ha Hm Hw H) as [E1 E2]. rewrite Hb in E2.
      eexists. split; [eapply St_head; eassumption|]. split; [exact E2|exact E1].
    - assert (Hm : r_method r <> HEAD) by (intros X; rewrite X in Em; discriminate).
      destruct Hsd as [Hn|a' pieces more Ha' Hz He Hf|a' pieces last more Ha' Hz He Hf]; [congruence| |]; rewrite Ha in Ha'; injection Ha' as <-.
      + destruct (plain_attachment _ _ _ _ _ _ _ _ _ _ _ _ _ _ _ _ Hs Hd Hp Ha Hz He Hm Hf Hw H) as [E1 E2]. rewrite Hb in E2.
        eexists. split; [eapply St_sized; eassumption|]. split; [exact E2|exact E1].
      + destruct (chunked_attachment _ _ _ _ _ _ _ _ _ _ _ _ _ _ _ _ Hs Hd Hp Ha Hz He Hm Hf Hw H) as (E1 & ws & E2 & E3). rewrite Hb in E2.
        eexists. split; [eapply St_stream; eassumption|]. split; [exact E2|exact E1]. }
  destruct (f_att f) as [a|] eqn:Ha.
  - destruct (Hatt a eq_refl) as (out & S1 & S2 & S3). exists out. split; [exact S1|]. split; [exact S2|]. left. split; [exact S3|].
    left. congruence.
  - destruct (plain_shape _ _ _ _ _ _ _ _ _ _ _ _ Hs Hd Hp Ha (writes_ok_head c Hw) H) as [E1 _]. rewrite Hb in E1. cbn [app] in E1.
    eexists. split; [apply St_plain; exact Ha|]. split; [exact E1|].
    destruct (persistence _ _ _ _ _ _ _ _ _ Ha Hu (writes_ok_head c Hw) H) as [[-> | ->] K].
    + left. split; [reflexivity|]. right. apply K. reflexivity.
    + right. split; [reflexivity|]. intros [X|X]; [congruence|]. apply K in X. discriminate.
Qed.

(* ---- reading heads ---- *)
Lemma net_reads_concat : forall net, concat (net_reads net) = net_data net.
Proof. induction net as [|[d [e|]] net IH]; cbn; congruence. Qed.
Lemma reads_concat : forall c, concat (reads_of c) = stream c.
Proof.
  intros c. unfold reads_of, stream. destruct (cl_pending c); cbn [concat app]; rewrite net_reads_concat; reflexivity.
Qed.

Section Serve.
Variable CS : Type.
Variable cparse : CS -> bytes -> bool -> CS * (bytes * bytes * option cerr).
Variable encoded : bool -> bytes -> bytes -> Prop.
Variable fresh : CS -> Prop.
Variable inside : CS -> bool -> bytes -> bytes -> Prop.
Hypothesis dec_ok : DecoderOk CS cparse encoded fresh inside.
Variable max : Z.
Hypothesis max_uint : (max < two64)%Z.
Variable cfg : hcfg.
Variables umax kmax vmax fbs : Z.
Variable defs : list entry.
Hypothesis defs_distinct : distinct_names defs.
Variable W : Type.
Variable on_request : W -> request -> hprog W.
Variable on_error : W -> request -> http_error -> hprog W.
Notation conn := (M_Suit.conn CS W).
Notation serve := (M_Suit.serve cparse max cfg on_request on_error).
Notation on_head := (M_Suit.on_head cparse max on_request on_error).
Notation on_bad_head := (M_Suit.on_bad_head cparse max on_error).
Notation close_with := (M_Suit.close_with cparse max on_error).
Notation lim := (cfg_limits cfg umax kmax vmax).

Lemma read_reads : forall c d rs, reads_of c = d :: rs -> exists c', client_read c = ((d, None), c') /\ reads_of c' = rs /\ cl_pending c' = [] /\ kept c c'.
Proof.
  intros [net p out w] d rs H. unfold reads_of, client_read in *. cbn in *. destruct p as [|x p].
  - destruct net as [|[d0 [e|]] net]; try discriminate. injection H as <- <-. eexists. split; [reflexivity|]. repeat split.
  - injection H as <- <-. eexists. split; [reflexivity|]. repeat split.
Qed.
Lemma read_none : forall c, reads_of c = [] -> exists d e c', client_read c = ((d, Some e), c') /\ kept c c' /\ cl_pending c' = [].
Proof.
  intros [net p out w] H. unfold reads_of, client_read in *. cbn in *. destruct p as [|x p]; [|discriminate].
  destruct net as [|[d0 [e|]] net]; try discriminate; eexists _, _, _; (split; [reflexivity|]); repeat split.
Qed.

Lemma serve_done : forall reads (st : conn) p' extra rs, reads_of (k_client st) = reads -> feed cfg (k_parser st) reads = (RDone p' extra, rs) ->
  exists n c1, reads_of c1 = rs /\ cl_pending c1 = [] /\ kept (k_client st) c1 /\
    forall fuel, serve (S n + fuel)%nat st =
      match on_head (set_k_parser p' (set_k_client c1 st)) extra with inl fin => fin | inr st' => serve fuel st' end.
Proof.
  induction reads as [|d reads IH]; intros st p' extra rs Hr Hf; cbn [feed] in Hf; [discriminate|].
  destruct (read_reads _ _ _ Hr) as (c1 & R1 & R2 & R3 & R4).
  destruct (parse cfg (k_parser st) d) as [p1|p1 ex|p1 er| |] eqn:Ep; try discriminate.
  - destruct (IH (set_k_parser p1 (set_k_client c1 st)) p' extra rs R2 Hf) as (n & c2 & H1 & H2 & H3 & H4).
    exists (S n), c2. split; [exact H1|]. split; [exact H2|]. split; [eapply kept_trans; [exact R4|exact H3]|].
    intros fuel. change (S (S n) + fuel)%nat with (S (S n + fuel)). cbn [M_Suit.serve]. rewrite R1. cbn [k_parser set_k_client]. rewrite Ep.
    rewrite H4. reflexivity.
  - injection Hf as -> -> ->. exists 0%nat, c1. split; [exact R2|]. split; [exact R3|]. split; [exact R4|].
    intros fuel. change (1 + fuel)%nat with (S fuel). cbn [M_Suit.serve]. rewrite R1. cbn [k_parser set_k_client]. rewrite Ep. reflexivity.
Qed.
Lemma serve_pending : forall reads (st : conn) p', reads_of (k_client st) = reads -> feed cfg (k_parser st) reads = (RPending p', []) ->
  exists n c1, kept (k_client st) c1 /\
    forall fuel, serve (S n + fuel)%nat st = close_with EndRead (set_k_parser p' (set_k_client c1 st)).
Proof.
  induction reads as [|d reads IH]; intros st p' Hr Hf; cbn [feed] in Hf.
  - injection Hf as <-. destruct (read_none _ Hr) as (d & e & c1 & R1 & R2 & R3). exists 0%nat, c1. split; [exact R2|].
    intros fuel. change (1 + fuel)%nat with (S fuel). cbn [M_Suit.serve]. rewrite R1. destruct st. reflexivity.
  - destruct (read_reads _ _ _ Hr) as (c1 & R1 & R2 & R3 & R4).
    destruct (parse cfg (k_parser st) d) as [p1|p1 ex|p1 er| |] eqn:Ep; try discriminate.
    destruct (IH (set_k_parser p1 (set_k_client c1 st)) p' R2 Hf) as (n & c2 & H3 & H4).
    exists (S n), c2. split; [eapply kept_trans; [exact R4|exact H3]|].
    intros fuel. change (S (S n) + fuel)%nat with (S (S n + fuel)). cbn [M_Suit.serve]. rewrite R1. cbn [k_parser set_k_client]. rewrite Ep.
    rewrite H4. reflexivity.
Qed.
Lemma serve_bad : forall reads (st : conn) p' e rs, reads_of (k_client st) = reads -> feed cfg (k_parser st) reads = (RErr p' e, rs) ->
  exists n c1, kept (k_client st) c1 /\
    forall fuel, serve (S n + fuel)%nat st = on_bad_head (set_k_parser p' (set_k_client c1 st)) e.
Proof.
  induction reads as [|d reads IH]; intros st p' e rs Hr Hf; cbn [feed] in Hf; [discriminate|].
  destruct (read_reads _ _ _ Hr) as (c1 & R1 & R2 & R3 & R4).
  destruct (parse cfg (k_parser st) d) as [p1|p1 ex|p1 er| |] eqn:Ep; try discriminate.
  - destruct (IH (set_k_parser p1 (set_k_client c1 st)) p' e rs R2 Hf) as (n & c2 & H3 & H4).
    exists (S n), c2. split; [eapply kept_trans; [exact R4|exact H3]|].
    intros fuel. change (S (S n) + fuel)%nat with (S (S n + fuel)). cbn [M_Suit.serve]. rewrite R1. cbn [k_parser set_k_client]. rewrite Ep.
    rewrite H4. reflexivity.
  - injection Hf as -> -> ->. exists 0%nat, c1. split; [exact R4|].
    intros fuel. change (1 + fuel)%nat with (S fuel). cbn [M_Suit.serve]. rewrite R1. cbn [k_parser set_k_client]. rewrite Ep. reflexivity.
Qed.

(* ---- the request object after a head ---- *)
Lemma shows : forall r0 h, wf_head h -> S_Head.fits lim h ->
  (exists enc, r0 = set_env (Env None [] enc []) new_request) \/
  (exists r, r0 = request_clear r /\ QueryFresh (r_query r) /\ r_hijacked r = false) ->
  Shows h (head_result cfg r0 h) /\ QueryFresh (r_query (head_result cfg r0 h)).
Proof.
  intros r0 h Hwf Hfit Hr.
  assert (K : SameView (head_result cfg r0 h) (head_result cfg new_request h) /\ r_hijacked r0 = false).
  { destruct Hr as [(enc & ->) | (r & -> & Hq & Hj)].
    - split; [|reflexivity]. destruct Hwf as (_ & _ & _ & _ & _ & _ & _ & Hlines & _). destruct Hfit as (_ & _ & _ & _ & _ & F6).
      unfold head_result. rewrite !lines_means by assumption. unfold line_effect. destruct (h_query h); constructor; reflexivity.
    - split; [|exact Hj]. rewrite <- new_is_cleared. eapply view_result; eauto. intro; reflexivity. }
  destruct K as [K Kj]. split.
  - exists (head_result cfg new_request h). split; [eapply head_result_means; eassumption|]. split; [exact K|].
    rewrite (mn_hijacked _ _ _ (head_result_means cfg umax kmax vmax r0 h Hwf Hfit)). exact Kj.
  - intros _. rewrite (sv_query _ _ K). destruct Hwf as (_ & _ & _ & _ & _ & _ & _ & Hlines & _). destruct Hfit as (_ & _ & _ & _ & _ & F6).
    unfold head_result. rewrite lines_means by assumption. unfold line_effect. destruct (h_query h); reflexivity.
Qed.

(* ---- one request, from its head on ---- *)
Lemma rep_moved : forall (Inv : body CS -> client -> bytes -> Prop) (End : body CS -> client -> Prop) b c c' v,
  (forall b c c' l, same_input c c' -> Inv b c l -> Inv b c' l) -> (forall b c c', same_input c c' -> End b c -> End b c') ->
  same_input c c' -> Rep CS Inv End b c v -> Rep CS Inv End b c' v.
Proof.
  intros Inv End b c c' v HI HE Hs [H1 H2 H3 H4]. constructor; auto. destruct H1 as [[? ?] | (? & ? & ?)]; [left|right]; eauto.
Qed.
Lemma same_stream : forall c c', same_input c c' -> stream c' = stream c.
Proof. intros c c' [H1 H2]. unfold stream. congruence. Qed.

Lemma body_phase : forall q r b c rest (h : hprog W), (len (q_text q) <= max)%Z ->
  (if is_chunked (q_head q) then encoded (has_trailer (q_head q)) (q_wire q) (q_text q)
   else q_wire q = q_text q /\ announced (q_head q) = len (q_text q) /\ (len (q_text q) <= max_alloc)%Z) ->
  Shows (q_head q) r -> QueryFresh (r_query r) ->
  fresh (bd_cs b) -> stream c = q_wire q ++ rest -> Ordinary fbs h ->
  exists resp w r' b' c', run_handler cparse max h r (body_init b r) c = HDone resp w r' b' c' /\
    HRun (more_of (q_head q)) h r (fresh_view (q_text q)) resp w r' /\ kept c c' /\
    r_hijacked r' = false /\ r_upgrade r' = r_upgrade r /\ QueryFresh (r_query r') /\ (forall f, resp = Some f -> Sendable fbs f) /\
    forall c2, same_input c' c2 -> exists b3 c3, request_clear_full cparse max r' b' c2 = (Some None, request_clear r', b3, c3) /\
      stream c3 = rest /\ fresh (bd_cs b3) /\ kept c2 c3.
Proof.
  intros q r b c rest h G4 G5 (r0 & M & V & Hj) Hq Hf Hs Ho.
  assert (Hch : enc_chunked (r_encoding r) = is_chunked (q_head q)). { rewrite (sv_encoding _ _ V), (mn_chunked _ _ _ M). reflexivity. }
  assert (Htr : enc_trailer (r_encoding r) = has_trailer (q_head q)). { rewrite (sv_encoding _ _ V), (mn_trailer _ _ _ M). apply orb_false_r. }
  assert (Hcl : r_content_length r = announced (q_head q)). { rewrite (sv_clen _ _ V), (mn_clen _ _ _ M). reflexivity. }
  destruct (init_stash CS b r) as [Hp He].
  unfold more_of. destruct (is_chunked (q_head q)) eqn:Ec.
  - pose (Inv := CInv CS inside max rest). pose (End := CEnd CS fresh rest).
    assert (MI : forall b c c' l, same_input c c' -> Inv b c l -> Inv b c' l).
    { intros b0 c0 c1 l Hi (A1 & A2 & A3 & A4 & w0 & A5 & A6 & A7). repeat split; auto. exists w0. rewrite (same_stream _ _ Hi). auto. }
    assert (ME : forall b c c', same_input c c' -> End b c -> End b c').
    { intros b0 c0 c1 Hi (A1 & A2 & A3). repeat split; auto. rewrite (same_stream _ _ Hi). auto. }
    assert (R0 : Rep CS Inv End (body_init b r) c (fresh_view (q_text q))).
    { constructor; cbn; auto; try discriminate. left. split; [reflexivity|]. eapply c_init; eauto. rewrite Htr. exact G5. }
    pose proof (L_Body2.chunked_step CS cparse encoded fresh inside dec_ok max max_uint rest) as Hstep.
    destruct (handler_ok CS cparse max Inv End any_text Hstep (c_inv_eof CS inside max rest) (c_end_eof CS fresh rest)
      (c_inv_full CS inside max rest) (c_end_full CS fresh rest) (c_inv_stash CS inside max rest) (c_end_stash CS fresh rest) (c_inv_alloc CS inside max rest)
      W fbs h Ho r (body_init b r) c _ R0 Hj Hq) as (resp & w & r' & b' & c' & v' & K1 & K2 & K3 & K4 & K5 & K6 & K7 & K8).
    exists resp, w, r', b', c'. split; [exact K1|]. split; [exact K2|]. split; [exact K4|]. split; [exact K5|]. split; [congruence|]. split; [exact K7|].
    split; [exact K8|]. intros c2 Hi. pose proof (rep_moved _ _ _ _ _ _ MI ME Hi K3) as R2.
    destruct (rep_discard CS cparse max Inv End any_text Hstep (c_inv_eof CS inside max rest) (c_end_eof CS fresh rest)
      (c_inv_full CS inside max rest) (c_end_full CS fresh rest) (c_inv_stash CS inside max rest) (c_end_stash CS fresh rest) (c_inv_alloc CS inside max rest)
      _ _ _ R2) as (b3 & c3 & D1 & D2 & D3).
    exists b3, c3. unfold request_clear_full. rewrite D1. split; [reflexivity|]. split; [apply D2|]. split; [apply D2|exact D3].
  - destruct G5 as (Gw & Ga & Gm). rewrite Gw in Hs.
    pose (Inv := PInv CS max rest (bd_cs b)). pose (End := PEnd CS rest (bd_cs b)).
    assert (MI : forall b c c' l, same_input c c' -> Inv b c l -> Inv b c' l).
    { intros b0 c0 c1 l Hi (A1 & A2 & A3 & A4 & A5 & A6 & A7). repeat split; auto. rewrite (same_stream _ _ Hi). auto. }
    assert (ME : forall b c c', same_input c c' -> End b c -> End b c').
    { intros b0 c0 c1 Hi (A1 & A2 & A3). repeat split; auto. rewrite (same_stream _ _ Hi). auto. }
    assert (R0 : Rep CS Inv End (body_init b r) c (fresh_view (q_text q))).
    { constructor; cbn; auto; try discriminate. left. split; [reflexivity|]. apply p_init; auto. congruence. }
    pose proof (L_Body2.plain_step CS cparse max rest (bd_cs b)) as Hstep.
    destruct (handler_ok CS cparse max Inv End not_done Hstep (p_inv_eof CS max rest _) (p_end_eof CS rest _)
      (p_inv_full CS max rest _) (p_end_full CS rest _) (p_inv_stash CS max rest _) (p_end_stash CS rest _) (p_inv_alloc CS max rest _)
      W fbs h Ho r (body_init b r) c _ R0 Hj Hq) as (resp & w & r' & b' & c' & v' & K1 & K2 & K3 & K4 & K5 & K6 & K7 & K8).
    exists resp, w, r', b', c'. split; [exact K1|]. split; [exact K2|]. split; [exact K4|]. split; [exact K5|]. split; [congruence|]. split; [exact K7|].
    split; [exact K8|]. intros c2 Hi. pose proof (rep_moved _ _ _ _ _ _ MI ME Hi K3) as R2.
    destruct (rep_discard CS cparse max Inv End not_done Hstep (p_inv_eof CS max rest _) (p_end_eof CS rest _)
      (p_inv_full CS max rest _) (p_end_full CS rest _) (p_inv_stash CS max rest _) (p_end_stash CS rest _) (p_inv_alloc CS max rest _)
      _ _ _ R2) as (b3 & c3 & D1 & D2 & D3).
    exists b3, c3. unfold request_clear_full. rewrite D1. split; [reflexivity|]. split; [apply D2|]. split; [|exact D3].
    destruct D2 as (_ & _ & ->). exact Hf.
Qed.

Lemma one_request : forall past (st : conn) q rest,
  (forall w r, Shows (q_head q) r -> Ordinary fbs (on_request w r)) ->
  Between umax kmax vmax fbs defs fresh past st -> GoodRequest encoded lim max q -> stream (k_client st) = wire q ++ rest ->
  exists n r resp w1 r' out st1, Shows (q_head q) r /\
    HRun (more_of (q_head q)) (on_request (k_world st) r) r (fresh_view (q_text q)) resp w1 r' /\
    Sent defs past (h_proto (q_head q)) r' (not_nil resp) out /\
    cl_out (k_client st1) = cl_out (k_client st) ++ out /\ k_world st1 = w1 /\
    ((S_Conn.stays_open (h_proto (q_head q)) r' (not_nil resp) /\
      Between umax kmax vmax fbs defs fresh (past ++ names (not_nil resp)) st1 /\ stream (k_client st1) = rest /\
      forall fuel, serve (n + fuel)%nat st = serve fuel st1) \/
     (~ S_Conn.stays_open (h_proto (q_head q)) r' (not_nil resp) /\ forall fuel, serve (n + fuel)%nat st = close_with EndWrite st1)).
Proof.
  intros past st q rest ordinary [B1 B2 B3 B4 B5 B6] G Hs. pose proof G as [G1 G2 G3 G4 G5].
  unfold wire in Hs. rewrite <- app_assoc in Hs. rewrite <- reads_concat in Hs.
  destruct (segmentation cfg umax kmax vmax _ _ _ _ B1 G1 G2 Hs) as (p' & extra & rs & F1 & F2 & F3 & F4 & F5).
  destruct (serve_done _ st p' extra rs eq_refl F1) as (n & c1 & R1 & R2 & R3 & R4).
  destruct (shows _ _ G1 G2 B2) as [Sh Qf]. rewrite <- F5 in Sh, Qf.
  set (r := p_req p') in *.
  assert (Hup : r_upgrade r = PUnknown). { destruct Sh as (r0 & M & V & _). rewrite (sv_upgrade _ _ V), (mn_upgrade _ _ _ M), G3. reflexivity. }
  assert (Hpr : r_proto r = h_proto (q_head q)). { destruct Sh as (r0 & M & V & _). rewrite (sv_proto _ _ V), (mn_proto _ _ _ M). reflexivity. }
  assert (Hst : stream (client_unread c1 extra) = q_wire q ++ rest).
  { rewrite stream_unread by exact R2. rewrite <- (reads_concat c1), R1. exact F2. }
  destruct (body_phase q r (k_body st) (client_unread c1 extra) rest (on_request (k_world st) r) G4 G5 Sh Qf B5 Hst (ordinary _ _ Sh))
    as (resp & w1 & r' & b' & c' & K1 & K2 & K3 & K4 & K5 & K6 & K7 & K8).
  rewrite Hup in K5.
  destruct (write_response (h_proto (q_head q)) r' (not_nil resp) (k_ser st) c') as [[[res s'] c''] f''] eqn:Ew.
  assert (Hwok : writes_ok c').
  { unfold writes_ok in *. destruct K3 as [_ ->]. unfold client_unread. cbn [cl_wres]. destruct R3 as [_ ->]. exact B6. }
  assert (Hsd : Sendable fbs (not_nil resp)). { destruct resp as [f|]; [apply K7; reflexivity|apply Sd_plain; reflexivity]. }
  destruct G1 as (Gm & Gp & _).
  destruct (write_sent _ _ _ _ _ _ _ _ _ _ _ _ B3 defs_distinct Gp B4 Hwok Hsd K5 Ew) as (out & S1 & S2 & S3).
  destruct (write_response_input _ _ _ _ _ _ _ _ _ Ew) as [I1 I2].
  assert (Hout : cl_out c'' = cl_out (k_client st) ++ out).
  { rewrite S2. destruct K3 as [-> _]. unfold client_unread. cbn [cl_out]. destruct R3 as [-> _]. reflexivity. }
  assert (Hoh : on_head (set_k_parser p' (set_k_client c1 st)) extra =
    match res with
    | WPanic => inl (EndPanic, Conn (set_p_req r' p') s' c'' b' (k_pre st) w1)
    | WStuck => inl (EndStuck, Conn (set_p_req r' p') s' c'' b' (k_pre st) w1)
    | WClose | WNet => inl (close_with EndWrite (Conn (set_p_req r' p') s' c'' b' (k_pre st) w1))
    | WOk => let '(res2, r2, b2, c2) := request_clear_full cparse max r' b' c'' in
             match res2 with
             | Some None => inr (Conn (set_p_req r2 p') s' c2 b2 (k_pre st) w1)
             | Some (Some _) => inl (close_with EndClear (Conn (set_p_req r2 p') s' c2 b2 (k_pre st) w1))
             | None => inl (EndStuck, Conn (set_p_req r2 p') s' c2 b2 (k_pre st) w1)
             end
    end).
  { unfold M_Suit.on_head. cbn [k_parser set_k_parser set_k_client k_client k_ser k_body k_pre k_world]. fold r. unfold wants_switch. rewrite Hup.
    rewrite K1, K4, Hpr, Ew. reflexivity. }
  destruct S3 as [[-> So] | [-> So]].
  - destruct (K8 c'' I1) as (b3 & c3 & D1 & D2 & D3 & D4).
    rewrite D1 in Hoh. exists (S n), r, resp, w1, r', out, (Conn (set_p_req (request_clear r') p') s' c3 b3 (k_pre st) w1).
    split; [exact Sh|]. split; [exact K2|]. split; [exact S1|]. cbn [k_client k_world].
    split; [destruct D4 as [-> _]; exact Hout|]. split; [reflexivity|]. left. split; [exact So|]. split; [|split; [exact D2|]].
    + constructor; cbn [k_parser k_ser k_body k_client].
      * exact F3.
      * right. exists r'. cbn [set_p_req p_req]. repeat split; assumption.
      * eapply Sv_write; [exact B3|exact Ew].
      * eapply write_clears. exact Ew.
      * exact D3.
      * unfold writes_ok in *. destruct D4 as [_ ->]. apply I2. exact Hwok.
    + intros fuel. rewrite R4, Hoh. reflexivity.
  - exists (S n), r, resp, w1, r', out, (Conn (set_p_req r' p') s' c'' b' (k_pre st) w1).
    split; [exact Sh|]. split; [exact K2|]. split; [exact S1|]. split; [exact Hout|]. split; [reflexivity|].
    right. split; [exact So|]. intros fuel. rewrite R4, Hoh. reflexivity.
Qed.

(* ---- all requests ---- *)
Lemma conversation : forall reqs past (st : conn) tail,
  (forall q w r, In q reqs -> Shows (q_head q) r -> Ordinary fbs (on_request w r)) ->
  Between umax kmax vmax fbs defs fresh past st -> Forall (GoodRequest encoded lim max) reqs ->
  stream (k_client st) = concat (map wire reqs) ++ tail ->
  exists n outs closed st1, Conversation defs on_request reqs (k_world st) past outs (k_world st1) closed /\
    cl_out (k_client st1) = cl_out (k_client st) ++ outs /\
    match closed with
    | None => (exists past', Between umax kmax vmax fbs defs fresh past' st1) /\ stream (k_client st1) = tail /\
              forall fuel, serve (n + fuel)%nat st = serve fuel st1
    | Some _ => forall fuel, serve (n + fuel)%nat st = close_with EndWrite st1
    end.
Proof.
  induction reqs as [|q reqs IH]; intros past st tail Ho HB Hg Hs.
  - exists 0%nat, [], None, st. split; [apply Cv_end|]. split; [symmetry; apply app_nil_r|].
    split; [eauto|]. split; [exact Hs|]. reflexivity.
  - inversion Hg as [|? ? G Hg']; subst. cbn [map concat] in Hs. rewrite <- app_assoc in Hs.
    destruct (one_request past st q _ (fun w r => Ho q w r (or_introl eq_refl)) HB G Hs) as (n & r & resp & w1 & r' & out & st1 & O1 & O2 & O3 & O4 & O5 & [(P1 & P2 & P3 & P4) | (P1 & P2)]).
    + destruct (IH _ st1 tail (fun q0 w r Hi => Ho q0 w r (or_intror Hi)) P2 Hg' P3) as (m & outs & closed & st2 & Q1 & Q2 & Q3).
      exists (n + m)%nat, (out ++ outs), closed, st2. split; [rewrite O5 in Q1; eapply Cv_open; eassumption|].
      split; [rewrite Q2, O4, app_assoc; reflexivity|]. destruct closed as [l|].
      * intros fuel. rewrite <- Nat.add_assoc, P4. apply Q3.
      * destruct Q3 as (Q3 & Q4 & Q5). split; [exact Q3|]. split; [exact Q4|]. intros fuel. rewrite <- Nat.add_assoc, P4. apply Q5.
    + exists n, out, (Some reqs), st1. split; [rewrite O5; eapply Cv_close; eassumption|]. split; [exact O4|]. exact P2.
Qed.

(* a connection from its first to its last byte *)
Theorem whole_connection : forall reqs past (st : conn) tail,
  (forall q w r, In q reqs -> Shows (q_head q) r -> Ordinary fbs (on_request w r)) ->
  Between umax kmax vmax fbs defs fresh past st -> Forall (GoodRequest encoded lim max) reqs -> Unfinished lim tail ->
  stream (k_client st) = concat (map wire reqs) ++ tail ->
  exists n outs closed st1, Conversation defs on_request reqs (k_world st) past outs (k_world st1) closed /\
    cl_out (k_client st1) = cl_out (k_client st) ++ outs /\
    forall fuel, (n <= fuel)%nat ->
      serve fuel st = close_with (match closed with None => EndRead | Some _ => EndWrite end) st1.
Proof.
  intros reqs past st tail Ho HB Hg (h & more & U1 & U2 & U3 & U4) Hs.
  destruct (conversation _ _ _ _ Ho HB Hg Hs) as (n & outs & closed & st1 & C1 & C2 & C3). destruct closed as [l|].
  - exists n, outs, (Some l), st1. split; [exact C1|]. split; [exact C2|]. intros fuel Hf.
    replace fuel with (n + (fuel - n))%nat by lia. apply C3.
  - destruct C3 as ((past' & HB1) & C4 & C5). destruct HB1 as [B1 _ _ _ _ _].
    assert (Hpre : concat (reads_of (k_client st1)) ++ more = render_head h) by (rewrite reads_concat, C4; exact U4).
    destruct (prefix_pending cfg umax kmax vmax _ h _ more B1 U1 U2 Hpre U3) as (p' & Hf).
    destruct (serve_pending _ st1 p' eq_refl Hf) as (m & c2 & M1 & M2).
    exists (n + S m)%nat, outs, None, (set_k_parser p' (set_k_client c2 st1)).
    split; [exact C1|]. split; [cbn; destruct M1 as [-> _]; exact C2|]. intros fuel Hfu.
    replace fuel with (n + (S m + (fuel - (n + S m))))%nat by lia. rewrite C5, M2. reflexivity.
Qed.
End Serve.
