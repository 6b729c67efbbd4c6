(* Lemmas: connections that receive any bytes. *)
From Verif Require Import M_Base M_Status M_Method M_Proto M_KeyValue M_Query M_Request M_Parser M_Client M_Body
  M_Response M_Serializer M_Suit S_KeyValue S_Chunk S_Head S_Parser S_Body S_Response S_Split S_Verdict S_Arrive S_Conn S_Iso S_Upgrade S_Talk
  L_Base L_Head L_Body L_Body2 L_Body3 L_BodyProps L_Response L_Response2 L_Response3 L_Attach L_ParserProps L_Conn L_Conn2 L_Conn3 L_Iso L_Upgrade L_Verdict L_Arrive6 L_Talk.

Local Arguments client_unread : simpl never.
Local Arguments write_response : simpl never.
Local Arguments pre_write : simpl never.

Lemma heard_enc : forall lim h r, Heard lim h r -> r_proto r = h_proto h /\ r_upgrade r = wished (read_as h) /\ r_hijacked r = false.
Proof.
  intros lim h r (r0 & (_ & hs & T) & V & J). split; [rewrite (sv_proto _ _ V); exact (ta_proto _ _ _ _ T)|]. split; [|exact J].
  rewrite (sv_upgrade _ _ V). exact (ta_upgrade _ _ _ _ T).
Qed.
Lemma between_clean : forall CS W umax kmax vmax fbs defs (fresh : CS -> Prop) past (st : conn CS W), Between umax kmax vmax fbs defs fresh past st ->
  QueryFresh (r_query (p_req (k_parser st))) /\ r_hijacked (p_req (k_parser st)) = false.
Proof.
  intros CS W umax kmax vmax fbs defs fresh past st [_ [(enc & ->)|(r & -> & Q & J)] _ _ _ _]; [split; [intros _|]; reflexivity|].
  split; [|exact J]. cbn [request_clear r_query]. apply set_fresh. exact Q.
Qed.
(* what is taken is shown as on a new connection *)
Lemma taken_heard : forall CS W cfg umax kmax vmax fbs defs (fresh : CS -> Prop) past (st : conn CS W) reads h rest p extra rs, (0 <= umax)%Z ->
  Between umax kmax vmax fbs defs fresh past st -> HeadHeard (cfg_limits cfg umax kmax vmax) reads (VTaken h rest) ->
  feed cfg (k_parser st) reads = (RDone p extra, rs) -> Heard (cfg_limits cfg umax kmax vmax) h (p_req p).
Proof.
  intros CS W cfg umax kmax vmax fbs defs fresh past st reads h rest p extra rs HU HB HV E.
  pose proof (head_follow cfg umax kmax vmax HU _ _ HV (new_parser umax kmax vmax new_request) (new_parser_ready _ _ _ _)) as (p0 & e0 & E0 & _ & T0).
  assert (HB2 : Between umax kmax vmax fbs defs fresh past (set_k_parser (new_parser umax kmax vmax new_request) st)).
  { destruct HB as [B1 B2 B3 B4 B5 B6]. constructor; try assumption; [apply new_parser_ready|]. left. exists enc_plain. reflexivity. }
  pose proof (told CS W cfg umax kmax vmax fbs defs fresh past past st _ reads HB HB2) as S. unfold SameFor in S. rewrite E in S. cbn [fst snd k_parser set_k_parser] in S.
  destruct S as [_ S]. rewrite E0 in S. destruct S as [_ S]. exists (p_req p0). split; [exact T0|]. split; [exact S|].
  pose proof (head_follow cfg umax kmax vmax HU _ _ HV (k_parser st) (bt_ready _ _ _ _ _ _ _ _ HB)) as (p1 & e1 & E1 & _ & (_ & hs & T1)).
  rewrite E in E1. cbn [fst] in E1. injection E1 as <- <-. pose proof (ta_hijacked _ _ _ _ T1) as J. cbn [set_headers r_hijacked] in J. rewrite J.
  exact (proj2 (between_clean _ _ _ _ _ _ _ _ _ _ HB)).
Qed.

(* reads of data keep what is known about the rest of the connection *)
Definition KeptByReads (P : list (bytes * option neterr) -> Prop) : Prop := forall d net, P ((d, None) :: net) -> P net.
Lemma read_keeps : forall P c d c', KeptByReads P -> client_read c = ((d, None), c') -> P (cl_net c) -> P (cl_net c').
Proof.
  intros P [net p out w] d c' K H Hp. unfold client_read in H. cbn in *. destruct p as [|y p].
  - destruct net as [|[d0 [e|]] net]; try discriminate H. injection H as <- <-. exact (K _ _ Hp).
  - injection H as <- <-. exact Hp.
Qed.
Lemma retrieve_keeps : forall CS cparse max (b : body CS) c P x b' c', KeptByReads P -> (bd_chunked b = false -> bd_left b = 0%Z \/ stream c <> []) -> (bd_chunked b = true -> stream c <> []) ->
  retrieve cparse max b c = (x, b', c') -> P (cl_net c) -> P (cl_net c').
Proof.
  intros CS cparse max b c P x b' c' K Hf Hc H Hp. unfold retrieve in H. destruct (bd_eof b); [injection H as <- <- <-; exact Hp|].
  destruct (bd_chunked b).
  - destruct (chunked_read cparse max b c) as [[y b1] c1] eqn:E. injection H as <- <- <-. unfold chunked_read in E.
    destruct (client_read_stream c (Hc eq_refl)) as (d & c2 & R & _). rewrite R in E. pose proof (read_keeps _ _ _ _ K R Hp) as Hp2.
    destruct (cparse _ _ _) as [cs' [[chunk extra] ce]]. destruct ce as [[|]|].
    + destruct (_ || _); injection E as <- <- <-; exact Hp2.
    + injection E as <- <- <-; exact Hp2.
    + destruct (_ || _); injection E as <- <- <-; exact Hp2.
  - destruct (plain_read max b c) as [[y b1] c1] eqn:E. injection H as <- <- <-. unfold plain_read in E.
    destruct (bd_left b =? 0)%Z eqn:E0; [injection E as <- <- <-; exact Hp|].
    destruct (Hf eq_refl) as [L|N]; [apply Z.eqb_neq in E0; contradiction|].
    destruct (client_read_stream c N) as (d & c2 & R & _). rewrite R in E. pose proof (read_keeps _ _ _ _ K R Hp) as Hp2.
    destruct (_ >? _)%Z; [injection E as <- <- <-; exact Hp2|]. destruct (_ >=? _)%Z; injection E as <- <- <-; exact Hp2.
Qed.
Lemma serve_done_keeps : forall CS cparse max cfg W on_request on_error P, KeptByReads P ->
  forall reads (st : conn CS W) p' extra rs, reads_of (k_client st) = reads -> P (cl_net (k_client st)) -> feed cfg (k_parser st) reads = (RDone p' extra, rs) ->
  exists n c1, reads_of c1 = rs /\ cl_pending c1 = [] /\ L_Conn.kept (k_client st) c1 /\ P (cl_net c1) /\
    forall fuel, serve cparse max cfg on_request on_error (S n + fuel)%nat st =
      match on_head cparse max on_request on_error (set_k_parser p' (set_k_client c1 st)) extra with inl fin => fin | inr st' => serve cparse max cfg on_request on_error fuel st' end.
Proof.
  intros CS cparse max cfg W on_request on_error P K. induction reads as [|d reads IH]; intros st p' extra rs Hr Hg Hf; cbn [feed] in Hf; [discriminate|].
  destruct (read_reads _ _ _ Hr) as (c1 & R1 & R2 & R3 & R4). pose proof (read_keeps _ _ _ _ K R1 Hg) as R5.
  destruct (parse cfg (k_parser st) d) as [p1|p1 ex|p1 er| |] eqn:Ep; try discriminate.
  - destruct (IH (set_k_parser p1 (set_k_client c1 st)) p' extra rs R2 R5 Hf) as (n & c2 & H1 & H2 & H3 & H5 & H4).
    exists (S n), c2. split; [exact H1|]. split; [exact H2|]. split; [eapply kept_trans; [exact R4|exact H3]|]. split; [exact H5|].
    intros fuel. change (S (S n) + fuel)%nat with (S (S n + fuel)). cbn [serve]. rewrite R1. cbn [k_parser set_k_client]. rewrite Ep.
    rewrite H4. reflexivity.
  - injection Hf as -> -> ->. exists 0%nat, c1. split; [exact R2|]. split; [exact R3|]. split; [exact R4|]. split; [exact R5|].
    intros fuel. change (1 + fuel)%nat with (S fuel). cbn [serve]. rewrite R1. cbn [k_parser set_k_client]. rewrite Ep. reflexivity.
Qed.

Section Serve.
Variable CS : Type.
Variable cparse : CS -> bytes -> bool -> CS * (bytes * bytes * option cerr).
Variable encoded : bool -> bytes -> bytes -> Prop.
Variable fresh : CS -> Prop.
Variable inside : CS -> bool -> bytes -> bytes -> Prop.
Hypothesis dec_ok : DecoderOk CS cparse encoded fresh inside.
Variable max : Z.
Hypothesis max_uint : (max < two64)%Z.
Variable cfg : hcfg.
Variables umax kmax vmax fbs : Z.
Hypothesis umax_ok : (0 <= umax)%Z.
Variable defs : list entry.
Hypothesis defs_distinct : distinct_names defs.
Variable W : Type.
Variable on_request : W -> request -> hprog W.
Variable on_error : W -> request -> http_error -> hprog W.
Notation conn := (M_Suit.conn CS W).
Notation serve := (M_Suit.serve cparse max cfg on_request on_error).
Notation close_with := (M_Suit.close_with cparse max on_error).
Notation on_head := (M_Suit.on_head cparse max on_request on_error).
Notation lim := (cfg_limits cfg umax kmax vmax).
Variable P : list (bytes * option neterr) -> Prop.
Hypothesis keeps : KeptByReads P.

Lemma body_heard : forall r text wire b c rest (h : hprog W), (len text <= max)%Z ->
  (if enc_chunked (r_encoding r) then encoded (enc_trailer (r_encoding r)) wire text
   else wire = text /\ r_content_length r = len text /\ (len text <= max_alloc)%Z) ->
  r_hijacked r = false -> QueryFresh (r_query r) ->
  fresh (bd_cs b) -> stream c = wire ++ rest -> P (cl_net c) -> Ordinary fbs h ->
  exists resp w r' b' c', run_handler cparse max h r (body_init b r) c = HDone resp w r' b' c' /\
    HRun (more_for r) h r (fresh_view text) resp w r' /\ L_Conn.kept c c' /\
    r_hijacked r' = false /\ r_upgrade r' = r_upgrade r /\ QueryFresh (r_query r') /\ (forall f, resp = Some f -> Sendable fbs f) /\
    forall c2, same_input c' c2 -> exists b3 c3, request_clear_full cparse max r' b' c2 = (Some None, request_clear r', b3, c3) /\
      stream c3 = rest /\ fresh (bd_cs b3) /\ L_Conn.kept c2 c3 /\ P (cl_net c3).
Proof.
  intros r text wire b c rest h G4 G5 Hj Hq Hf Hs HP Ho.
  destruct (init_stash CS b r) as [Hp He].
  unfold more_for. destruct (enc_chunked (r_encoding r)) eqn:Ec.
  - pose (Inv := fun b c l => CInv CS inside max rest b c l /\ P (cl_net c)). pose (End := fun b c => CEnd CS fresh rest b c /\ P (cl_net c)).
    assert (MI : forall b c c' l, same_input c c' -> Inv b c l -> Inv b c' l).
    { intros b0 c0 c1 l Hi [(A1 & A2 & A3 & A4 & w0 & A5 & A6 & A7) A8]. repeat split; auto; [exists w0; rewrite (same_stream _ _ Hi); auto|destruct Hi as [-> _]; exact A8]. }
    assert (ME : forall b c c', same_input c c' -> End b c -> End b c').
    { intros b0 c0 c1 Hi [(A1 & A2 & A3) A8]. repeat split; auto; [rewrite (same_stream _ _ Hi); auto|destruct Hi as [-> _]; exact A8]. }
    assert (R0 : Rep CS Inv End (body_init b r) c (fresh_view text)).
    { constructor; cbn; auto; try discriminate. left. split; [reflexivity|]. split; [eapply c_init; eauto|exact HP]. }
    assert (Hstep : forall b c left, Inv b c left -> exists d e b' c', retrieve cparse max b c = ((d, e), b', c') /\
      bd_full b' = bd_full b /\ bd_pending b' = bd_pending b /\ bd_error b' = bd_error b /\
      ((e = None /\ exists left', left = d ++ left' /\ any_text left' /\ Inv b' c' left' /\ (csize c' < csize c)%nat) \/ (e = Some BEof /\ d = left /\ End b' c'))).
    { intros b0 c0 l [I0 P0]. pose proof I0 as (_ & I2 & _ & _ & w0 & Nw & _ & I6).
      destruct (L_Body2.chunked_step CS cparse encoded fresh inside dec_ok max max_uint rest b0 c0 l I0) as (d & e & b' & c' & H1 & H2 & H3 & H4 & H5).
      assert (P1 : P (cl_net c')).
      { eapply retrieve_keeps; [exact keeps| | |exact H1|exact P0]; [rewrite I2; discriminate|]. intros _. rewrite I6. destruct w0; [congruence|discriminate]. }
      exists d, e, b', c'. split; [exact H1|]. split; [exact H2|]. split; [exact H3|]. split; [exact H4|].
      destruct H5 as [(J1 & l' & J2 & J3 & J4 & J5)|(J1 & J2 & J3)]; [left; split; [exact J1|]; exists l'; split; [exact J2|]; split; [exact J3|]; split; [split; assumption|exact J5]|right; split; [exact J1|]; split; [exact J2|]; split; assumption]. }
    assert (E1 : forall b c l, Inv b c l -> bd_eof b = false) by (intros ? ? ? [A _]; apply A).
    assert (E2 : forall b c, End b c -> bd_eof b = true) by (intros ? ? [A _]; apply A).
    assert (E3 : forall b c l f cap, Inv b c l -> Inv (set_full f cap b) c l) by (intros ? ? ? ? ? A; exact A).
    assert (E4 : forall b c f cap, End b c -> End (set_full f cap b) c) by (intros ? ? ? ? A; exact A).
    assert (E5 : forall b c l p e, Inv b c l -> Inv (set_stash p e b) c l) by (intros ? ? ? ? ? A; exact A).
    assert (E6 : forall b c p e, End b c -> End (set_stash p e b) c) by (intros ? ? ? ? A; exact A).
    assert (E7 : forall b c l, Inv b c l -> bd_chunked b = true \/ (bd_clen b <= max_alloc)%Z) by (intros ? ? ? [A _]; left; apply A).
    destruct (handler_ok CS cparse max Inv End any_text Hstep E1 E2 E3 E4 E5 E6 E7
      W fbs h Ho r (body_init b r) c _ R0 Hj Hq) as (resp & w & r' & b' & c' & v' & K1 & K2 & K3 & K4 & K5 & K6 & K7 & K8).
    exists resp, w, r', b', c'. split; [exact K1|]. split; [exact K2|]. split; [exact K4|]. split; [exact K5|]. split; [congruence|]. split; [exact K7|].
    split; [exact K8|]. intros c2 Hi. pose proof (rep_moved CS _ _ _ _ _ _ MI ME Hi K3) as R2.
    destruct (rep_discard CS cparse max Inv End any_text Hstep E1 E2 E3 E4 E5 E6 E7
      _ _ _ R2) as (b3 & c3 & D1 & D2 & D3).
    exists b3, c3. unfold request_clear_full. rewrite D1. split; [reflexivity|]. split; [apply D2|]. split; [apply D2|]. split; [exact D3|apply D2].
  - destruct G5 as (Gw & Ga & Gm). rewrite Gw in Hs.
    pose (Inv := fun b0 c l => PInv CS max rest (bd_cs b) b0 c l /\ P (cl_net c)). pose (End := fun b0 c => PEnd CS rest (bd_cs b) b0 c /\ P (cl_net c)).
    assert (MI : forall b c c' l, same_input c c' -> Inv b c l -> Inv b c' l).
    { intros b0 c0 c1 l Hi [(A1 & A2 & A3 & A4 & A5 & A6 & A7) A8]. repeat split; auto; [rewrite (same_stream _ _ Hi); auto|destruct Hi as [-> _]; exact A8]. }
    assert (ME : forall b c c', same_input c c' -> End b c -> End b c').
    { intros b0 c0 c1 Hi [(A1 & A2 & A3) A8]. repeat split; auto; [rewrite (same_stream _ _ Hi); auto|destruct Hi as [-> _]; exact A8]. }
    assert (R0 : Rep CS Inv End (body_init b r) c (fresh_view text)).
    { constructor; cbn; auto; try discriminate. left. split; [reflexivity|]. split; [apply p_init; auto|exact HP]. }
    assert (Hstep : forall b c left, Inv b c left -> exists d e b' c', retrieve cparse max b c = ((d, e), b', c') /\
      bd_full b' = bd_full b /\ bd_pending b' = bd_pending b /\ bd_error b' = bd_error b /\
      ((e = None /\ exists left', left = d ++ left' /\ not_done left' /\ Inv b' c' left' /\ (csize c' < csize c)%nat) \/ (e = Some BEof /\ d = left /\ End b' c'))).
    { intros b0 c0 l [I0 P0]. pose proof I0 as (_ & I2 & I3 & _ & _ & I6 & _).
      destruct (L_Body2.plain_step CS cparse max rest (bd_cs b) b0 c0 l I0) as (d & e & b' & c' & H1 & H2 & H3 & H4 & H5).
      assert (P1 : P (cl_net c')).
      { eapply retrieve_keeps; [exact keeps| | |exact H1|exact P0]; [|rewrite I2; discriminate]. intros _. rewrite I3, I6. destruct l; [left; reflexivity|right; discriminate]. }
      exists d, e, b', c'. split; [exact H1|]. split; [exact H2|]. split; [exact H3|]. split; [exact H4|].
      destruct H5 as [(J1 & l' & J2 & J3 & J4 & J5)|(J1 & J2 & J3)]; [left; split; [exact J1|]; exists l'; split; [exact J2|]; split; [exact J3|]; split; [split; assumption|exact J5]|right; split; [exact J1|]; split; [exact J2|]; split; assumption]. }
    assert (E1 : forall b c l, Inv b c l -> bd_eof b = false) by (intros ? ? ? [A _]; apply A).
    assert (E2 : forall b c, End b c -> bd_eof b = true) by (intros ? ? [A _]; apply A).
    assert (E3 : forall b c l f cap, Inv b c l -> Inv (set_full f cap b) c l) by (intros ? ? ? ? ? A; exact A).
    assert (E4 : forall b c f cap, End b c -> End (set_full f cap b) c) by (intros ? ? ? ? A; exact A).
    assert (E5 : forall b c l p e, Inv b c l -> Inv (set_stash p e b) c l) by (intros ? ? ? ? ? A; exact A).
    assert (E6 : forall b c p e, End b c -> End (set_stash p e b) c) by (intros ? ? ? ? A; exact A).
    assert (E7 : forall b c l, Inv b c l -> bd_chunked b = true \/ (bd_clen b <= max_alloc)%Z) by (intros ? ? ? [A _]; right; apply A).
    destruct (handler_ok CS cparse max Inv End not_done Hstep E1 E2 E3 E4 E5 E6 E7
      W fbs h Ho r (body_init b r) c _ R0 Hj Hq) as (resp & w & r' & b' & c' & v' & K1 & K2 & K3 & K4 & K5 & K6 & K7 & K8).
    exists resp, w, r', b', c'. split; [exact K1|]. split; [exact K2|]. split; [exact K4|]. split; [exact K5|]. split; [congruence|]. split; [exact K7|].
    split; [exact K8|]. intros c2 Hi. pose proof (rep_moved CS _ _ _ _ _ _ MI ME Hi K3) as R2.
    destruct (rep_discard CS cparse max Inv End not_done Hstep E1 E2 E3 E4 E5 E6 E7
      _ _ _ R2) as (b3 & c3 & D1 & D2 & D3).
    exists b3, c3. unfold request_clear_full. rewrite D1. split; [reflexivity|]. split; [apply D2|]. split; [|split; [exact D3|apply D2]].
    destruct D2 as [(_ & _ & ->) _]. exact Hf.
Qed.

(* the 101 response, rendered ahead *)
Lemma announce_heard : forall past ups (st : conn) h r,
  Amid umax kmax vmax fbs defs fresh past ups st -> r_proto r = h_proto h -> r_upgrade r = wished h -> h_proto h <> PUnknown ->
  exists s pre version past' ups' text,
    (if wants_switch r then
      match resp_header (B "Connection") [B "upgrade"] (set_code 101%N (k_pre st)) with
      | Some f1 =>
          match resp_header (B "Upgrade") [trim_last (proto_string (r_proto r))] f1 with
          | Some f2 => (pre_write (r_proto r) f2 (k_ser st), f2, r_upgrade r)
          | None => (k_ser st, k_pre st, r_upgrade r)
          end
      | None => (k_ser st, k_pre st, r_upgrade r)
      end
     else (k_ser st, k_pre st, r_proto r)) = (s, pre, version) /\
    version <> PUnknown /\ Served fbs defs past' s /\ s_buff s = text /\
    (exists c, pre = set_rheaders (announcement ups') (set_code c new_response)) /\
    (forall r' f first rest, Sent defs past' version r' f (first :: rest) ->
       Replies defs past ups h r' f ((text ++ first) :: rest) (past' ++ names f) ups') /\
    (forall r' f, S_Conn.stays_open version r' f \/ wished h <> PUnknown <-> goes_on h r' f).
Proof.
  intros past ups st h r [[B1 B2 B3 B4 B5 B6] (c & Hc)] Hpr Hup Hp.
  assert (Ws : wants_switch r = match switch_to h with Some _ => true | None => false end) by (unfold wants_switch, switch_to; rewrite Hup; destruct (wished h); reflexivity).
  rewrite Ws. destruct (switch_to h) as [p|] eqn:Es.
  - destruct (switch_wish h p Es) as [Ew Epu].
    rewrite Hc.
    change (resp_header (B "Connection") [B "upgrade"] (set_code 101%N (set_rheaders (announcement ups) (set_code c new_response))))
      with (Some (set_rheaders (announcement ups ++ [(B "Connection", B "upgrade")]) (set_code 101%N new_response))).
    cbv beta iota.
    set (pre := set_rheaders (announcement (ups ++ [h_proto h])) (set_code 101%N new_response)).
    assert (Eh : resp_header (B "Upgrade") [trim_last (proto_string (r_proto r))]
      (set_rheaders (announcement ups ++ [(B "Connection", B "upgrade")]) (set_code 101%N new_response)) = Some pre).
    { unfold pre. rewrite Hpr, announcement_snoc.
      replace (trim_last (proto_string (h_proto h))) with (version_of (h_proto h)) by (destruct (h_proto h); try reflexivity; congruence).
      unfold resp_header. replace (equal_fold (B "Upgrade") (B "content-type")) with false by reflexivity.
      replace (equal_fold (B "Upgrade") (B "transfer-encoding")) with false by reflexivity. cbn [map f_headers set_rheaders]. rewrite <- app_assoc. reflexivity. }
    rewrite Eh, Hpr. clear Eh.
    pose proof (pre_write_text _ _ _ _ (h_proto h) pre B3 defs_distinct Hp) as E1. rewrite B4 in E1. cbn [app] in E1.
    pose proof (Sv_pre _ _ _ _ (h_proto h) pre B3) as Hs2.
    eexists _, _, _, _, (ups ++ [h_proto h]), _. split; [reflexivity|].
    rewrite Hup, Ew. split; [exact Epu|]. split; [exact Hs2|]. split; [reflexivity|].
    split; [exists 101%N; reflexivity|]. split.
    + intros r' f first rest S. rewrite E1. change (names pre) with (map fst (announcement (ups ++ [h_proto h]))) in *.
      apply (Rp_switch defs past ups h r' f p first rest Es). exact S.
    + intros r' f. unfold goes_on. rewrite ?Ew. split; intros _; right; exact Epu.
  - eexists _, _, _, past, ups, _. split; [reflexivity|]. rewrite Hpr. split; [exact Hp|]. split; [exact B3|]. split; [reflexivity|].
    split; [exists c; exact Hc|]. split.
    + intros r' f first rest S. rewrite B4. cbn [app]. apply Rp_same; assumption.
    + intros r' f. reflexivity.
Qed.

Lemma taken_version : forall reads h rest, HeadHeard lim reads (VTaken h rest) -> h_proto h <> PUnknown.
Proof.
  intros reads h rest HV. remember (VTaken h rest) as v eqn:Ev. destruct HV as [| | | | | | | | |m l t h0 t' v E N K G L1 L2]; try discriminate Ev.
  destruct v; cbn [of_lines] in Ev; try discriminate Ev. injection Ev as <- <-. destruct G as (vs & _ & _ & _ & _ & V & _). cbn [with_lines h_proto].
  intros E0. rewrite E0 in V. destruct V as (c & [[_ V]|[[_ V]|[_ V]]]); discriminate V.
Qed.
Lemma tell_short : forall ls t v, LinesTell lim ls t v -> forall ls' rest, v = LTaken ls' rest -> (List.length rest <= List.length t)%nat.
Proof.
  intros ls t v H. induction H; intros ls' rest E; try discriminate E.
  - injection E as <- <-. rewrite app_length. lia.
  - specialize (IHLinesTell _ _ E). rewrite app_length. lia.
  - specialize (IHLinesTell _ _ E). rewrite app_length. cbn [List.length]. rewrite !app_length. lia.
Qed.
Lemma heard_short : forall a reads t, LinesHeard lim a reads t -> (List.length t <= List.length a + List.length (concat reads))%nat.
Proof.
  intros a reads t H. induction H as [a|a b n d reads (E & _)|a d reads t _ _ IH].
  - cbn. lia.
  - rewrite E. cbn [concat]. rewrite !app_length. lia.
  - cbn [concat]. rewrite !app_length in *. lia.
Qed.
Lemma without_short : forall reads k, (List.length (concat (without k reads)) <= List.length (concat reads))%nat.
Proof.
  induction reads as [|d reads IH]; intros k; [cbn; lia|]. cbn [without]. destruct (Nat.leb k (List.length d)); cbn [concat]; rewrite ?app_length.
  - rewrite skipn_length. lia.
  - specialize (IH (k - List.length d)%nat). lia.
Qed.
Lemma without_len : forall reads k, (k <= List.length (concat reads))%nat -> List.length (concat (without k reads)) = (List.length (concat reads) - k)%nat.
Proof.
  induction reads as [|d reads IH]; intros k Hk; [cbn in *; lia|]. cbn [without]. cbn [concat] in *. rewrite app_length in *.
  destruct (Nat.leb k (List.length d)) eqn:E; cbn [concat]; rewrite ?app_length.
  - apply Nat.leb_le in E. rewrite skipn_length. lia.
  - apply Nat.leb_gt in E. rewrite IH by lia. lia.
Qed.
Lemma taken_short : forall reads h rest, HeadHeard lim reads (VTaken h rest) -> (List.length rest < List.length (concat reads))%nat.
Proof.
  intros reads h rest HV. remember (VTaken h rest) as v eqn:Ev. destruct HV as [| | | | | | | | |m l t h0 t' v E N K G L1 L2]; try discriminate Ev.
  destruct v; cbn [of_lines] in Ev; try discriminate Ev. injection Ev as <- <-.
  pose proof (tell_short _ _ _ L2 _ _ eq_refl) as T1. pose proof (heard_short _ _ _ L1) as T2. cbn [List.length] in T2.
  rewrite without_len in T2; rewrite E in *; rewrite ?app_length in *; cbn [List.length] in *; rewrite ?app_length in *; cbn [List.length] in *; lia.
Qed.

Lemma one_turn : forall past ups (st : conn) h rest,
  (forall w r, Heard lim h r -> Ordinary fbs (on_request w r)) ->
  Amid umax kmax vmax fbs defs fresh past ups st -> P (cl_net (k_client st)) -> HeadHeard lim (reads_of (k_client st)) (VTaken h rest) ->
  exists r, Heard lim h r /\ forall text rest', BodyOf encoded max r rest text rest' ->
  exists n out past' ups' st1 open, Turn encoded max lim defs (Handled on_request) (reads_of (k_client st)) (k_world st) past ups out (k_world st1) past' ups' rest' open /\
    cl_out (k_client st1) = cl_out (k_client st) ++ out /\
    if open then Amid umax kmax vmax fbs defs fresh past' ups' st1 /\ stream (k_client st1) = rest' /\ P (cl_net (k_client st1)) /\
                 (List.length rest' < List.length (stream (k_client st)))%nat /\ forall fuel, serve (n + fuel)%nat st = serve fuel st1
    else forall fuel, serve (n + fuel)%nat st = close_with EndWrite st1.
Proof.
  intros past ups st h rest ordinary Ha HP HV. pose proof Ha as [HB _]. pose proof HB as [B1 B2 B3 B4 B5 B6].
  pose proof (head_follow cfg umax kmax vmax umax_ok _ _ HV (k_parser st) B1) as (p' & extra & F0 & F2 & _).
  destruct (feed cfg (k_parser st) (reads_of (k_client st))) as [res rs] eqn:F1. cbn [fst snd] in F0, F2. subst res.
  destruct (serve_done_keeps CS cparse max cfg W on_request on_error P keeps _ st p' extra rs eq_refl HP F1) as (n & c1 & R1 & R2 & R3 & R5 & R4).
  pose proof (taken_heard _ _ _ _ _ _ _ _ _ _ _ _ _ _ _ _ _ umax_ok HB HV F1) as Sh.
  destruct (between_clean _ _ _ _ _ _ _ _ _ _ HB) as [Q0 _].
  destruct (done_ready _ _ _ _ _ _ _ _ _ B1 Q0 F1) as [F3 Qf].
  set (r := p_req p') in *. exists r. split; [exact Sh|]. intros text rest' [Bl Bo].
  destruct (heard_enc _ _ _ Sh) as (Sp & Su & Sj).
  destruct (announce_heard past ups st (read_as h) r Ha Sp Su (taken_version _ _ _ HV)) as (s & pre & version & past' & ups' & txt & An & Vu & Sv & Bt & Pr & Rp & Go).
  assert (Hst : stream (client_unread c1 extra) = rest).
  { rewrite stream_unread by exact R2. rewrite <- (reads_concat c1), R1. exact F2. }
  assert (Hw : exists wire, rest = wire ++ rest' /\ if enc_chunked (r_encoding r) then encoded (enc_trailer (r_encoding r)) wire text
    else wire = text /\ r_content_length r = len text /\ (len text <= max_alloc)%Z).
  { destruct (enc_chunked (r_encoding r)); [exact Bo|]. exists text. destruct Bo as (O1 & O2 & O3). auto. }
  destruct Hw as (wire & Hw & Bw). rewrite Hw in Hst.
  destruct (body_heard r text wire (k_body st) (client_unread c1 extra) rest' (on_request (k_world st) r) Bl Bw Sj Qf B5 Hst R5 (ordinary _ _ Sh))
    as (resp & w1 & r' & b' & c' & K1 & K2 & K3 & K4 & K5 & K6 & K7 & K8).
  rewrite Su in K5.
  destruct (write_response version r' (not_nil resp) s c') as [[[res s'] c''] f''] eqn:Ew.
  assert (Hwok : writes_ok c').
  { unfold writes_ok in *. destruct K3 as [_ ->]. unfold client_unread. cbn [cl_wres]. destruct R3 as [_ ->]. exact B6. }
  assert (Hsd : Sendable fbs (not_nil resp)). { destruct resp as [f|]; [apply K7; reflexivity|apply Sd_plain; reflexivity]. }
  destruct (write_sent_behind _ _ _ _ _ _ _ _ _ _ _ _ Sv defs_distinct Vu Hwok Hsd Ew) as (first & restw & S1 & S2 & S3).
  rewrite Bt in S2. rewrite K5 in S3.
  destruct (write_response_input _ _ _ _ _ _ _ _ _ Ew) as [I1 I2].
  assert (Hout : cl_out c'' = cl_out (k_client st) ++ (txt ++ first) :: restw).
  { rewrite S2. destruct K3 as [-> _]. unfold client_unread. cbn [cl_out]. destruct R3 as [-> _]. reflexivity. }
  assert (Hoh : on_head (set_k_parser p' (set_k_client c1 st)) extra =
    match res with
    | WPanic => inl (EndPanic, Conn (set_p_req r' p') s' c'' b' pre w1)
    | WStuck => inl (EndStuck, Conn (set_p_req r' p') s' c'' b' pre w1)
    | WClose | WNet => inl (close_with EndWrite (Conn (set_p_req r' p') s' c'' b' pre w1))
    | WOk => let '(res2, r2, b2, c2) := request_clear_full cparse max r' b' c'' in
             match res2 with
             | Some None => inr (Conn (set_p_req r2 p') s' c2 b2 pre w1)
             | Some (Some _) => inl (close_with EndClear (Conn (set_p_req r2 p') s' c2 b2 pre w1))
             | None => inl (EndStuck, Conn (set_p_req r2 p') s' c2 b2 pre w1)
             end
    end).
  { unfold M_Suit.on_head. cbn [k_parser set_k_parser set_k_client k_client k_ser k_body k_pre k_world]. fold r. rewrite An.
    rewrite K1, K4, Ew. reflexivity. }
  pose proof (Rp r' (not_nil resp) first restw S1) as Rp1.
  assert (BO : BodyOf encoded max r rest text rest') by (split; assumption).
  destruct S3 as [[-> So] | [-> So]]; rewrite Go in So.
  - destruct (K8 c'' I1) as (b3 & c3 & D1 & D2 & D3 & D4 & D5).
    rewrite D1 in Hoh. exists (S n), ((txt ++ first) :: restw), (past' ++ names (not_nil resp)), ups', (Conn (set_p_req (request_clear r') p') s' c3 b3 pre w1), true.
    cbn [k_client k_world].
    split; [eapply Tn; [exact HV|exact Sh|exact BO|exact K2|exact Rp1|split; intros _; [exact So|reflexivity]]|].
    split; [destruct D4 as [-> _]; exact Hout|]. split; [|split; [exact D2|split; [exact D5|split]]].
    + split; [|exact Pr]. constructor; cbn [k_parser k_ser k_body k_client].
      * exact F3.
      * right. exists r'. cbn [set_p_req p_req]. repeat split; assumption.
      * eapply Sv_write; [exact Sv|exact Ew].
      * eapply write_clears. exact Ew.
      * exact D3.
      * unfold writes_ok in *. destruct D4 as [_ ->]. apply I2. exact Hwok.
    + pose proof (taken_short _ _ _ HV) as T. rewrite reads_concat, Hw, app_length in T. lia.
    + intros fuel. rewrite R4, Hoh. reflexivity.
  - exists (S n), ((txt ++ first) :: restw), (past' ++ names (not_nil resp)), ups', (Conn (set_p_req r' p') s' c'' b' pre w1), false.
    cbn [k_client k_world].
    split; [eapply Tn; [exact HV|exact Sh|exact BO|exact K2|exact Rp1|split; [discriminate|intros X; exfalso; apply So; exact X]]|].
    split; [exact Hout|]. intros fuel. rewrite R4, Hoh. reflexivity.
Qed.

End Serve.
