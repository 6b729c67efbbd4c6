(* Lemmas: connections that receive any bytes, and whose handlers may take them over. *)
From Verif Require Import M_Base M_Status M_Method M_Proto M_KeyValue M_Query M_Request M_Parser M_Client M_Body
  M_Response M_Serializer M_Suit M_Path M_Radix M_Router S_Static S_KeyValue S_Chunk S_Head S_Parser S_Body S_Response S_Split S_Verdict S_Arrive S_Conn S_Unversioned S_Iso S_Routes S_Router S_Serve S_Upgrade S_Talk S_Mutators S_Mutated S_MutTalk S_Takeover S_Takeover2 S_TakeTalk
  L_Base L_Head L_Body L_Body2 L_Body3 L_BodyProps L_Response L_Response2 L_Response3 L_Attach L_ParserProps L_Conn L_Conn2 L_Conn3 L_Iso L_Upgrade L_Verdict L_Serve L_VerdictConn L_Arrive6 L_Talk L_Talk2 L_Talk3 L_Talk4 L_Mutators L_Mutated L_MutTalk L_Takeover L_Takeover2 L_Takeover3.

Local Arguments client_unread : simpl never.
Local Arguments write_response : simpl never.
Local Arguments pre_write : simpl never.

Section Serve.
Variable CS : Type.
Variable cparse : CS -> bytes -> bool -> CS * (bytes * bytes * option cerr).
Variable encoded : bool -> bytes -> bytes -> Prop.
Variable fresh : CS -> Prop.
Variable inside : CS -> bool -> bytes -> bytes -> Prop.
Hypothesis dec_ok : DecoderOk CS cparse encoded fresh inside.
Variable max : Z.
Hypothesis max_uint : (max < two64)%Z.
Variable cfg : hcfg.
Variables umax kmax vmax fbs : Z.
Hypothesis umax_ok : (0 <= umax)%Z.
Variable defs : list entry.
Hypothesis defs_distinct : distinct_names defs.
Variable W : Type.
Variable on_request : W -> request -> hprog W.
Variable on_error : W -> request -> http_error -> hprog W.
Notation conn := (M_Suit.conn CS W).
Notation serve := (M_Suit.serve cparse max cfg on_request on_error).
Notation close_with := (M_Suit.close_with cparse max on_error).
Notation on_head := (M_Suit.on_head cparse max on_request on_error).
Notation lim := (cfg_limits cfg umax kmax vmax).
Lemma free_heard : forall r text wire b c rest (h : hprog W), (len text <= max)%Z ->
  (if enc_chunked (r_encoding r) then encoded (enc_trailer (r_encoding r)) wire text
   else wire = text /\ r_content_length r = len text /\ (len text <= max_alloc)%Z) ->
  r_hijacked r = false -> QueryFresh (r_query r) ->
  fresh (bd_cs b) -> stream c = wire ++ rest -> writes_ok c -> Willing fbs h ->
  exists resp w r' b' c', run_handler cparse max h r (body_init b r) c = HDone resp w r' b' c' /\
    ((exists v evs wrote, FSteps (more_for r) rest h r (Open (fresh_view text)) (Returns resp w) r' (Over v evs wrote) /\
        r_hijacked r' = true /\ cl_out c' = cl_out c ++ wrote /\ stream c' = net_data evs) \/
     (HRun (more_for r) h r (fresh_view text) resp w r' /\ L_Conn.kept c c' /\
      r_hijacked r' = false /\ r_upgrade r' = r_upgrade r /\ QueryFresh (r_query r') /\ (forall f, resp = Some f -> Sendable fbs f) /\
      forall c2, same_input c' c2 -> exists b3 c3, request_clear_full cparse max r' b' c2 = (Some None, request_clear r', b3, c3) /\
        stream c3 = rest /\ fresh (bd_cs b3) /\ L_Conn.kept c2 c3)).
Proof.
  intros r text wire b c rest h G4 G5 Hj Hq Hf Hs Hwr Ho.
  destruct (init_stash CS b r) as [Hp He].
  unfold more_for. destruct (enc_chunked (r_encoding r)) eqn:Ec.
  - pose (Inv := CInv CS inside max rest). pose (End := CEnd CS fresh rest).
    assert (MI : forall b c c' l, same_input c c' -> Inv b c l -> Inv b c' l).
    { intros b0 c0 c1 l Hi (A1 & A2 & A3 & A4 & w0 & A5 & A6 & A7). repeat split; auto. exists w0. rewrite (same_stream _ _ Hi). auto. }
    assert (ME : forall b c c', same_input c c' -> End b c -> End b c').
    { intros b0 c0 c1 Hi (A1 & A2 & A3). repeat split; auto. rewrite (same_stream _ _ Hi). auto. }
    assert (ER : forall b c, End b c -> stream c = rest). { intros b0 c0 HE. apply HE. }
    assert (R0 : Rep CS Inv End (body_init b r) c (fresh_view text)).
    { constructor; cbn; auto; try discriminate. left. split; [reflexivity|]. eapply c_init; eauto. }
    pose proof (L_Body2.chunked_step CS cparse encoded fresh inside dec_ok max max_uint rest) as Hstep.
    assert (H0 : Holds CS Inv End c (body_init b r) c (Open (fresh_view text))) by (split; [exact Hwr|]; split; [exact R0|reflexivity]).
    assert (Hn : false = true -> is_over (Open (fresh_view text)) = true) by discriminate.
    destruct (free_ok CS cparse max Inv End any_text Hstep (c_inv_eof CS inside max rest) (c_end_eof CS fresh rest)
      (c_inv_full CS inside max rest) (c_end_full CS fresh rest) (c_inv_stash CS inside max rest) (c_end_stash CS fresh rest) (c_inv_alloc CS inside max rest)
      rest ER W (CanBeSent fbs) false false h Ho c r (body_init b r) c (Open (fresh_view text)) H0 Hn Hj Hq) as (o & r' & b' & c' & m' & K1 & K2 & K3 & K4 & K5 & K6 & K7 & K8 & K9).
    destruct o as [resp w|]; [|discriminate]. exists resp, w, r', b', c'. split; [exact K1|]. destruct K4 as [K4 K10]. destruct m' as [v'|v' evs ws].
    2: { left. exists v', evs, ws. destruct K10 as (_ & <- & K10). split; [exact K3|]. split; [exact K6|]. split; [exact K10|]. symmetry. apply events_stream. }
    right. destruct K10 as [K10 _]. split; [exists v'; eapply open_steps; [exact K3|reflexivity|reflexivity]|]. split; [apply K9; reflexivity|]. split; [exact K6|]. split; [congruence|]. split; [exact K8|].
    split; [exact K2|]. intros c2 Hi. assert (R2 : Rep CS Inv End b' c2 v') by (eapply rep_moved; eassumption).
    destruct (rep_discard CS cparse max Inv End any_text Hstep (c_inv_eof CS inside max rest) (c_end_eof CS fresh rest)
      (c_inv_full CS inside max rest) (c_end_full CS fresh rest) (c_inv_stash CS inside max rest) (c_end_stash CS fresh rest) (c_inv_alloc CS inside max rest)
      _ _ _ R2) as (b3 & c3 & D1 & D2 & D3).
    exists b3, c3. unfold request_clear_full. rewrite D1. split; [reflexivity|]. split; [apply D2|]. split; [apply D2|exact D3].
  - destruct G5 as (Gw & Ga & Gm). rewrite Gw in Hs.
    pose (Inv := PInv CS max rest (bd_cs b)). pose (End := PEnd CS rest (bd_cs b)).
    assert (MI : forall b c c' l, same_input c c' -> Inv b c l -> Inv b c' l).
    { intros b0 c0 c1 l Hi (A1 & A2 & A3 & A4 & A5 & A6 & A7). repeat split; auto. rewrite (same_stream _ _ Hi). auto. }
    assert (ME : forall b c c', same_input c c' -> End b c -> End b c').
    { intros b0 c0 c1 Hi (A1 & A2 & A3). repeat split; auto. rewrite (same_stream _ _ Hi). auto. }
    assert (ER : forall b c, End b c -> stream c = rest). { intros b0 c0 HE. apply HE. }
    assert (R0 : Rep CS Inv End (body_init b r) c (fresh_view text)).
    { constructor; cbn; auto; try discriminate. left. split; [reflexivity|]. apply p_init; auto. }
    pose proof (L_Body2.plain_step CS cparse max rest (bd_cs b)) as Hstep.
    assert (H0 : Holds CS Inv End c (body_init b r) c (Open (fresh_view text))) by (split; [exact Hwr|]; split; [exact R0|reflexivity]).
    assert (Hn : false = true -> is_over (Open (fresh_view text)) = true) by discriminate.
    destruct (free_ok CS cparse max Inv End not_done Hstep (p_inv_eof CS max rest _) (p_end_eof CS rest _)
      (p_inv_full CS max rest _) (p_end_full CS rest _) (p_inv_stash CS max rest _) (p_end_stash CS rest _) (p_inv_alloc CS max rest _)
      rest ER W (CanBeSent fbs) false false h Ho c r (body_init b r) c (Open (fresh_view text)) H0 Hn Hj Hq) as (o & r' & b' & c' & m' & K1 & K2 & K3 & K4 & K5 & K6 & K7 & K8 & K9).
    destruct o as [resp w|]; [|discriminate]. exists resp, w, r', b', c'. split; [exact K1|]. destruct K4 as [K4 K10]. destruct m' as [v'|v' evs ws].
    2: { left. exists v', evs, ws. destruct K10 as (_ & <- & K10). split; [exact K3|]. split; [exact K6|]. split; [exact K10|]. symmetry. apply events_stream. }
    right. destruct K10 as [K10 _]. split; [exists v'; eapply open_steps; [exact K3|reflexivity|reflexivity]|]. split; [apply K9; reflexivity|]. split; [exact K6|]. split; [congruence|]. split; [exact K8|].
    split; [exact K2|]. intros c2 Hi. assert (R2 : Rep CS Inv End b' c2 v') by (eapply rep_moved; eassumption).
    destruct (rep_discard CS cparse max Inv End not_done Hstep (p_inv_eof CS max rest _) (p_end_eof CS rest _)
      (p_inv_full CS max rest _) (p_end_full CS rest _) (p_inv_stash CS max rest _) (p_end_stash CS rest _) (p_inv_alloc CS max rest _)
      _ _ _ R2) as (b3 & c3 & D1 & D2 & D3).
    exists b3, c3. unfold request_clear_full. rewrite D1. split; [reflexivity|]. split; [apply D2|]. split; [|exact D3].
    destruct D2 as (_ & _ & ->). exact Hf.
Qed.

Lemma free_turn : forall past ups (st : conn) h rest,
  (forall w r, Heard lim h r -> Willing fbs (on_request w r)) ->
  Amid umax kmax vmax fbs defs fresh past ups st -> HeadHeard lim (reads_of (k_client st)) (VTaken h rest) ->
  exists r, Heard lim h r /\ forall text rest', BodyOf encoded max r rest text rest' ->
  (exists n resp r' v evs wrote st1,
     FSteps (more_for r) rest' (on_request (k_world st) r) r (Open (fresh_view text)) (Returns resp (k_world st1)) r' (Over v evs wrote) /\
     cl_out (k_client st1) = cl_out (k_client st) ++ wrote /\ stream (k_client st1) = net_data evs /\
     forall fuel, serve (n + fuel)%nat st = (EndHijack, st1)) \/
  exists n out past' ups' st1 open, Turn encoded max lim defs (Handled on_request) (reads_of (k_client st)) (k_world st) past ups out (k_world st1) past' ups' rest' open /\
    cl_out (k_client st1) = cl_out (k_client st) ++ out /\
    if open then Amid umax kmax vmax fbs defs fresh past' ups' st1 /\ stream (k_client st1) = rest' /\
                 (List.length rest' < List.length (stream (k_client st)))%nat /\ forall fuel, serve (n + fuel)%nat st = serve fuel st1
    else forall fuel, serve (n + fuel)%nat st = close_with EndWrite st1.
Proof.
  intros past ups st h rest ordinary Ha HV. pose proof Ha as [HB _]. pose proof HB as [B1 B2 B3 B4 B5 B6].
  pose proof (head_follow cfg umax kmax vmax umax_ok _ _ HV (k_parser st) B1) as (p' & extra & F0 & F2 & _).
  destruct (feed cfg (k_parser st) (reads_of (k_client st))) as [res rs] eqn:F1. cbn [fst snd] in F0, F2. subst res.
  destruct (serve_done CS cparse max cfg W on_request on_error _ st p' extra rs eq_refl F1) as (n & c1 & R1 & R2 & R3 & R4).
  pose proof (taken_heard _ _ _ _ _ _ _ _ _ _ _ _ _ _ _ _ _ umax_ok HB HV F1) as Sh.
  destruct (between_clean _ _ _ _ _ _ _ _ _ _ HB) as [Q0 _].
  destruct (done_ready _ _ _ _ _ _ _ _ _ B1 Q0 F1) as [F3 Qf].
  set (r := p_req p') in *. exists r. split; [exact Sh|]. intros text rest' [Bl Bo].
  destruct (heard_enc _ _ _ Sh) as (Sp & Su & Sj).
  destruct (announce_heard CS fresh umax kmax vmax fbs defs defs_distinct W past ups st (read_as h) r Ha Sp Su (taken_version cfg umax kmax vmax _ _ _ HV)) as (s & pre & version & past' & ups' & txt & An & Vu & Sv & Bt & Pr & Rp & Go).
  assert (Hst : stream (client_unread c1 extra) = rest).
  { rewrite stream_unread by exact R2. rewrite <- (reads_concat c1), R1. exact F2. }
  assert (Hw : exists wire, rest = wire ++ rest' /\ if enc_chunked (r_encoding r) then encoded (enc_trailer (r_encoding r)) wire text
    else wire = text /\ r_content_length r = len text /\ (len text <= max_alloc)%Z).
  { destruct (enc_chunked (r_encoding r)); [exact Bo|]. exists text. destruct Bo as (O1 & O2 & O3). auto. }
  destruct Hw as (wire & Hw & Bw). rewrite Hw in Hst.
  assert (Hwok1 : writes_ok (client_unread c1 extra)).
  { unfold writes_ok in *. unfold client_unread. cbn [cl_wres]. destruct R3 as [_ ->]. exact B6. }
  destruct (free_heard r text wire (k_body st) (client_unread c1 extra) rest' (on_request (k_world st) r) Bl Bw Sj Qf B5 Hst Hwok1 (ordinary _ _ Sh))
    as (resp & w1 & r' & b' & c' & K1 & [(v & evs & wrote & K2 & K3 & K4 & K5)|(K2 & K3 & K4 & K5 & K6 & K7 & K8)]).
  { left. exists (S n), resp, r', v, evs, wrote, (Conn (set_p_req r' p') s c' b' pre w1).
    split; [exact K2|]. cbn [k_client]. split; [rewrite K4; unfold client_unread; cbn [cl_out]; destruct R3 as [-> _]; reflexivity|].
    split; [exact K5|]. intros fuel. rewrite R4.
    unfold M_Suit.on_head. cbn [k_parser set_k_parser set_k_client k_client k_ser k_body k_pre k_world]. fold r. rewrite An, K1, K3. reflexivity. }
  right.
  rewrite Su in K5.
  destruct (write_response version r' (not_nil resp) s c') as [[[res s'] c''] f''] eqn:Ew.
  assert (Hwok : writes_ok c').
  { unfold writes_ok in *. destruct K3 as [_ ->]. exact Hwok1. }
  assert (Hsd : Sendable fbs (not_nil resp)). { destruct resp as [f|]; [apply K7; reflexivity|apply Sd_plain; reflexivity]. }
  destruct (write_sent_behind _ _ _ _ _ _ _ _ _ _ _ _ Sv defs_distinct Vu Hwok Hsd Ew) as (first & restw & S1 & S2 & S3).
  rewrite Bt in S2. rewrite K5 in S3.
  destruct (write_response_input _ _ _ _ _ _ _ _ _ Ew) as [I1 I2].
  assert (Hout : cl_out c'' = cl_out (k_client st) ++ (txt ++ first) :: restw).
  { rewrite S2. destruct K3 as [-> _]. unfold client_unread. cbn [cl_out]. destruct R3 as [-> _]. reflexivity. }
  assert (Hoh : on_head (set_k_parser p' (set_k_client c1 st)) extra =
    match res with
    | WPanic => inl (EndPanic, Conn (set_p_req r' p') s' c'' b' pre w1)
    | WStuck => inl (EndStuck, Conn (set_p_req r' p') s' c'' b' pre w1)
    | WClose | WNet => inl (close_with EndWrite (Conn (set_p_req r' p') s' c'' b' pre w1))
    | WOk => let '(res2, r2, b2, c2) := request_clear_full cparse max r' b' c'' in
             match res2 with
             | Some None => inr (Conn (set_p_req r2 p') s' c2 b2 pre w1)
             | Some (Some _) => inl (close_with EndClear (Conn (set_p_req r2 p') s' c2 b2 pre w1))
             | None => inl (EndStuck, Conn (set_p_req r2 p') s' c2 b2 pre w1)
             end
    end).
  { unfold M_Suit.on_head. cbn [k_parser set_k_parser set_k_client k_client k_ser k_body k_pre k_world]. fold r. rewrite An.
    rewrite K1, K4, Ew. reflexivity. }
  pose proof (Rp r' (not_nil resp) first restw S1) as Rp1.
  assert (BO : BodyOf encoded max r rest text rest') by (split; assumption).
  destruct S3 as [[-> So] | [-> So]]; rewrite Go in So.
  - destruct (K8 c'' I1) as (b3 & c3 & D1 & D2 & D3 & D4).
    rewrite D1 in Hoh. exists (S n), ((txt ++ first) :: restw), (past' ++ names (not_nil resp)), ups', (Conn (set_p_req (request_clear r') p') s' c3 b3 pre w1), true.
    cbn [k_client k_world].
    split; [eapply Tn; [exact HV|exact Sh|exact BO|exact K2|exact Rp1|split; intros _; [exact So|reflexivity]]|].
    split; [destruct D4 as [-> _]; exact Hout|]. split; [|split; [exact D2|split]].
    + split; [|exact Pr]. constructor; cbn [k_parser k_ser k_body k_client].
      * exact F3.
      * right. exists r'. cbn [set_p_req p_req]. repeat split; assumption.
      * eapply Sv_write; [exact Sv|exact Ew].
      * eapply write_clears. exact Ew.
      * exact D3.
      * unfold writes_ok in *. destruct D4 as [_ ->]. apply I2. exact Hwok.
    + pose proof (taken_short cfg umax kmax vmax _ _ _ HV) as T. rewrite reads_concat, Hw, app_length in T. lia.
    + intros fuel. rewrite R4, Hoh. reflexivity.
  - exists (S n), ((txt ++ first) :: restw), (past' ++ names (not_nil resp)), ups', (Conn (set_p_req r' p') s' c'' b' pre w1), false.
    cbn [k_client k_world].
    split; [eapply Tn; [exact HV|exact Sh|exact BO|exact K2|exact Rp1|split; [discriminate|intros X; exfalso; apply So; exact X]]|].
    split; [exact Hout|]. intros fuel. rewrite R4, Hoh. reflexivity.
Qed.


Theorem free_talk : Decided encoded max ->
  (forall h r, h_decoded h <> [] -> Heard lim h r -> forall w, Willing fbs (on_request w r)) ->
  forall past ups (st : conn), Amid umax kmax vmax fbs defs fresh past ups st ->
  (exists n st1, SeizedAmid encoded max lim defs (Within reachable (Handled on_request)) (Taking on_request) past ups st st1 /\
     forall fuel, serve (n + fuel)%nat st = (EndHijack, st1)) \/
  exists n outs left st1, Talk encoded max lim defs (Within reachable (Handled on_request)) (reads_of (k_client st)) (k_world st) past ups outs (k_world st1) left /\
    cl_out (k_client st1) = cl_out (k_client st) ++ outs /\
    match left with
    | None => forall fuel, serve (n + fuel)%nat st = close_with EndWrite st1
    | Some (reads, past', ups') => reads = reads_of (k_client st1) /\ Stops encoded max lim reads /\
        Amid umax kmax vmax fbs defs fresh past' ups' st1 /\ forall fuel, serve (n + fuel)%nat st = serve fuel st1
    end.
Proof.
  intros HD willing past ups st. remember (S (List.length (stream (k_client st)))) as k eqn:Ek.
  assert (Hk : (List.length (stream (k_client st)) < k)%nat) by lia. clear Ek. revert past ups st Hk.
  induction k as [|k IH]; intros past ups st Hk Ha; [lia|].
  assert (Stay : Stops encoded max lim (reads_of (k_client st)) -> exists n outs left st1, Talk encoded max lim defs (Within reachable (Handled on_request)) (reads_of (k_client st)) (k_world st) past ups outs (k_world st1) left /\
    cl_out (k_client st1) = cl_out (k_client st) ++ outs /\
    match left with
    | None => forall fuel, serve (n + fuel)%nat st = close_with EndWrite st1
    | Some (reads, past', ups') => reads = reads_of (k_client st1) /\ Stops encoded max lim reads /\
        Amid umax kmax vmax fbs defs fresh past' ups' st1 /\ forall fuel, serve (n + fuel)%nat st = serve fuel st1
    end).
  { intros S. exists 0%nat, [], (Some (reads_of (k_client st), past, ups)), st. split; [apply Tk_stop|]. split; [rewrite app_nil_r; reflexivity|]. split; [reflexivity|].
    split; [exact S|]. split; [exact Ha|]. reflexivity. }
  destruct (head_all lim (reads_of (k_client st))) as (v & HV).
  destruct v as [|h rest|named e|]; try (right; apply Stay; intros h' rest' H'; exfalso; exact (head_agree lim _ _ _ umax_ok HV H')).
  pose proof (heard_nonempty _ _ _ _ HV) as Sd.
  destruct (free_turn past ups st h rest (fun w r Hr => willing h r Sd Hr w) Ha HV) as (r & Hr & HT).
  destruct (body_decided encoded max HD r rest) as [(text & rest' & HB)|N].
  - destruct (HT text rest' HB) as [(n & resp & r' & v & evs & wrote & st1 & T1 & T2 & T3 & T4)|(n & out & past' & ups' & st1 & open & T0 & O & K)].
    { left. exists n, st1. split; [|exact T4].
      exists [], (k_world st), (reads_of (k_client st)), past, ups, h, rest, r, text, rest', (on_request (k_world st) r), r, resp, r', v, evs, wrote.
      split; [apply Tk_stop|]. split; [exact HV|]. split; [exact Hr|]. split; [exact HB|]. split; [split; reflexivity|]. split; [exact T1|]. split; [exact T2|exact T3]. }
    assert (T : Turn encoded max lim defs (Within reachable (Handled on_request)) (reads_of (k_client st)) (k_world st) past ups out (k_world st1) past' ups' rest' open).
    { eapply turn_answers; [|exact T0]. intros h' r1 w0 text0 resp0 w1 r1' Hr1 rest1 HV1 HA. split; [|exact HA].
      rewrite (heard_path _ _ _ Hr1). exact (heard_nonempty _ _ _ _ HV1). }
    destruct open.
    + destruct K as (Ha1 & Hs1 & Hl & Hf). assert (Hk1 : (List.length (stream (k_client st1)) < k)%nat) by (rewrite Hs1; lia).
      assert (Ec : concat (reads_of (k_client st1)) = rest') by (rewrite reads_concat; exact Hs1).
      destruct (IH past' ups' st1 Hk1 Ha1)
        as [(n2 & st2 & (outs & w1 & reads & past1 & ups1 & h1 & rest1 & r1 & text1 & rest1' & f & r2 & resp & r' & v & evs & wrote & Q1 & Q2 & Q3 & Q4 & Q5 & Q6 & Q7 & Q8) & Q9)
           |(n2 & outs & left & st2 & T2 & O2 & K2)].
      * left. exists (n + n2)%nat, st2. split; [|intros fuel; rewrite <- Nat.add_assoc, Hf; apply Q9].
        exists (out ++ outs), w1, reads, past1, ups1, h1, rest1, r1, text1, rest1', f, r2, resp, r', v, evs, wrote.
        split; [eapply Tk_open; [exact T|exact Ec|exact Q1]|]. repeat (split; [assumption|]). split; [|exact Q8]. rewrite Q7, O, <- !app_assoc. reflexivity.
      * right. exists (n + n2)%nat, (out ++ outs), left, st2. split; [eapply Tk_open; [exact T|exact Ec|exact T2]|].
        split; [rewrite O2, O, app_assoc; reflexivity|]. destruct left as [[[reads past2] ups2]|].
        -- destruct K2 as (K2 & K3 & K4 & K5). repeat (split; [assumption|]). intros fuel. rewrite <- Nat.add_assoc, Hf. apply K5.
        -- intros fuel. rewrite <- Nat.add_assoc, Hf. apply K2.
    + right. exists n, out, None, st1. split; [eapply Tk_close; exact T|]. split; [exact O|exact K].
  - right. apply Stay. intros h' rest' H' r' text rest2 Hr' HB'.
    destruct (same_framing cfg umax kmax vmax _ _ _ _ _ _ _ umax_ok HV H' Hr Hr') as (-> & F). apply N. exists text, rest2. eapply body_framing; [symmetry; exact F|exact HB'].
Qed.
End Serve.

Section App.
Variable W : Type.
Variable os : list (list nat * rop W).
Variable x : runtime W.
Hypothesis running : Running os x.
Hypothesis harmless_mus : HarmlessMutators os.
Variable mus : list (request -> request).
Hypothesis in_order : InOrder os [] mus.
Hypothesis routable : AlwaysRoutable os mus.
Lemma mut_willing : forall fbs lim h r, WillingApp fbs (settled os) -> h_decoded h <> [] -> Heard lim h r -> forall w, Willing fbs (on_request x w r).
Proof.
  intros fbs lim h r HO Hp Hr w. destruct (mut_dispatched W os x running mus in_order routable lim h r Hp Hr) as (g & r1 & HD & HW).
  pose proof (dispatch_willing W (settled os) fbs _ g r1 HO HD) as Hh. pose proof (route_harmless W os x running harmless_mus) as Hk. destruct (HW w) as [[-> _]|(e & r2 & -> & _)].
  - apply Fr_update; [exact Hk|apply Hh].
  - apply Fr_update; [exact Hk|]. apply Fr_update; [apply set_error_harmless|apply Hh].
Qed.
Lemma mut_taking : forall lim h r w more rest v o r' m', h_decoded h <> [] -> Heard lim h r ->
  FSteps more rest (on_request x w r) r (Open v) o r' m' -> exists f r1, TakingRoute os mus w r f r1 /\ FSteps more rest f r1 (Open v) o r' m'.
Proof.
  intros lim h r w more rest v o r' m' Hp Hr HS. destruct (mut_dispatched W os x running mus in_order routable lim h r Hp Hr) as (g & r1 & HD & HW).
  exists (g w r1), r1. split; [exists g; auto|]. destruct (HW w) as [[E Ef]|(e & r2 & E & Ef & E1)]; rewrite E in HS; inversion HS; subst; cbn beta in *; [assumption|].
  match goal with K : FSteps _ _ (HUpdate _ _) _ _ _ _ _ |- _ => inversion K; subst; assumption end.
Qed.
End App.
Theorem mut_free_talk : forall CS cparse encoded fresh inside,
  DecoderOk CS cparse encoded fresh inside -> forall max, (0 <= max < two64)%Z -> Decided encoded max ->
  forall cfg umax kmax vmax fbs defs, (0 <= umax)%Z -> distinct_names defs ->
  forall W (os : list (list nat * rop W)) x mus, Running os x -> InOrder os [] mus -> HarmlessMutators os -> WillingApp fbs (settled os) -> AlwaysRoutable os mus ->
  forall past ups (st : conn CS (world W)), Amid umax kmax vmax fbs defs fresh past ups st ->
  let lim := cfg_limits cfg umax kmax vmax in
  let serve := serve cparse max cfg (on_request x) (on_error x) in
  let close_with := close_with cparse max (on_error x) in
  (exists n st1, SeizedAmid encoded max lim defs (MutRouted os mus) (TakingRoute os mus) past ups st st1 /\
     forall fuel, (n <= fuel)%nat -> serve fuel st = (EndHijack, st1)) \/
  exists n outs left st1,
    Talk encoded max lim defs (MutRouted os mus) (reads_of (k_client st)) (k_world st) past ups outs (k_world st1) left /\
    cl_out (k_client st1) = cl_out (k_client st) ++ outs /\
    match left with
    | None => forall fuel, (n <= fuel)%nat -> serve fuel st = close_with EndWrite st1
    | Some (reads, past1, ups1) => reads = reads_of (k_client st1) /\ Stops encoded max lim reads /\
        forall v, HeadHeard lim reads v ->
        match v with
        | VTaken h rest => forall fuel, serve (n + fuel)%nat st = serve fuel st1
        | VMore => exists m st2, cl_out (k_client st2) = cl_out (k_client st1) /\ k_world st2 = k_world st1 /\
            forall fuel, (m <= fuel)%nat -> serve fuel st = close_with EndRead st2
        | VPanics => exists m st2, cl_out (k_client st2) = cl_out (k_client st1) /\ k_world st2 = k_world st1 /\
            forall fuel, (m <= fuel)%nat -> serve fuel st = (EndPanic, st2)
        | VRefused named e => exists q r1, r_proto q = or_default named (r_proto (p_req (k_parser st1))) /\ r1 = set_error (EHttp e) (one_by_one mus q) /\
            (Detached (error_choice os (he_code e) (k_world st1) r1) -> exists resp w' r' out m st2,
               detached_result (error_choice os (he_code e) (k_world st1) r1) r1 = Some (resp, w', r') /\
               (forall fuel, (m <= fuel)%nat -> serve fuel st = (EndParse, st2)) /\
               k_world st2 = w' /\ cl_out (k_client st2) = cl_out (k_client st1) ++ [out] /\
               SentIn defs past1 (r_proto r') r' (not_nil resp) [out])
        end
    end.
Proof.
  intros CS cparse encoded fresh inside HD max [Hmin Hmax] Dc cfg umax kmax vmax fbs defs HU Hdefs W os x mus HR HI HM HO Rt past ups st Ha lim serve close_with.
  assert (Ans : forall h r w text resp w1 r', Heard lim h r -> Within reachable (Handled (on_request x)) w r text resp w1 r' -> MutRouted os mus w r text resp w1 r').
  { intros h r w text resp w1 r' Hr [Hp Hh]. eapply (mut_routed W os x HR mus HI Rt); eassumption. }
  destruct (free_talk CS cparse encoded fresh inside HD max Hmax cfg umax kmax vmax fbs HU defs Hdefs (world W) (on_request x) (on_error x) Dc
    (fun h r Hp Hr => mut_willing W os x HR HM mus HI Rt fbs _ h r HO Hp Hr) past ups st Ha)
    as [(n & st1 & (outs & w1 & reads & past1 & ups1 & h1 & rest1 & r1 & text1 & rest1' & f & r2 & resp & r' & v & evs & wrote & Q1 & Q2 & Q3 & Q4 & (-> & ->) & Q6 & Q7 & Q8) & Q9)
       |(n & outs & left & st1 & T & O & K)].
  { left. exists n, st1. split; [|intros fuel Hf; replace fuel with (n + (fuel - n))%nat by lia; apply Q9].
    destruct (mut_taking W os x HR mus HI Rt _ h1 r1 w1 _ _ _ _ _ _ (heard_nonempty _ _ _ _ Q2) Q3 Q6) as (f & r2 & F1 & F2).
    exists outs, w1, reads, past1, ups1, h1, rest1, r1, text1, rest1', f, r2, resp, r', v, evs, wrote.
    split; [eapply talk_answers; [|exact Q1]; intros h r w text resp0 w0 r0 Hr Hh; eapply Ans; eassumption|]. auto 10. }
  right. exists n, outs, left, st1. split; [eapply talk_answers; [|exact T]; intros h r w text resp w1 r' Hr Hh; eapply Ans; eassumption|]. split; [exact O|].
  destruct left as [[[reads past1] ups1]|].
  2:{ intros fuel Hf. replace fuel with (n + (fuel - n))%nat by lia. apply K. }
  destruct K as (Er & St & Ha1 & Sv). split; [exact Er|]. split; [exact St|]. intros v HV. rewrite Er in HV.
  pose proof (fate CS cparse fresh max cfg umax kmax vmax fbs HU defs Hdefs (world W) (on_request x) (on_error x) past1 ups1 st1 Ha1 v HV) as F.
  destruct v as [|h rest|named e|].
  - destruct F as (m & st2 & F1 & F2 & F3). exists (n + m)%nat, st2. split; [exact F1|]. split; [exact F2|]. intros fuel Hf.
    replace fuel with (n + (fuel - n))%nat by lia. unfold serve. rewrite Sv. apply F3. lia.
  - exact Sv.
  - destruct F as (q & F1 & F2 & F3). destruct (mut_refusal W os x HR mus HI (k_world st1) q e F2) as (G1 & G3).
    exists q, (set_error (EHttp e) (one_by_one mus q)). split; [exact F1|]. split; [reflexivity|]. intros HDt.
    assert (HDt' : Detached (on_error x (k_world st1) q e)) by (rewrite G3; apply Dt_update, Dt_update; exact HDt).
    destruct (F3 HDt') as (resp & w' & r' & out & m & st2 & D1 & D2 & D3 & D4 & D5).
    rewrite G3 in D1. unfold detached_result in D1. cbn [aloof_run] in D1. rewrite G1 in D1.
    exists resp, w', r', out, (n + m)%nat, st2. split; [exact D1|]. split; [|split; [exact D3|split; [exact D4|exact D5]]].
    intros fuel Hf. replace fuel with (n + (fuel - n))%nat by lia. unfold serve. rewrite Sv. apply D2. lia.
  - destruct F as (m & st2 & F1 & F2 & F3). exists (n + m)%nat, st2. split; [exact F1|]. split; [exact F2|]. intros fuel Hf.
    replace fuel with (n + (fuel - n))%nat by lia. unfold serve. rewrite Sv. apply F3. lia.
Qed.
