(* Lemmas: connections whose handlers may take them over. *)
From Verif Require Import M_Base M_Status M_Method M_Proto M_KeyValue M_Query M_Request M_Parser M_Client M_Body
  M_Response M_Serializer M_Suit S_KeyValue S_Chunk S_Head S_Parser S_Body S_Response S_Conn S_Upgrade S_Takeover
  L_Base L_Head L_Body L_Body2 L_Body3 L_BodyProps L_Response L_Response2 L_Response3 L_Attach L_Conn L_Conn2 L_Conn3 L_Upgrade L_Takeover.

Local Arguments client_unread : simpl never.
Local Arguments write_response : simpl never.
Local Arguments pre_write : simpl never.

Section Serve.
Variable CS : Type.
Variable cparse : CS -> bytes -> bool -> CS * (bytes * bytes * option cerr).
Variable encoded : bool -> bytes -> bytes -> Prop.
Variable fresh : CS -> Prop.
Variable inside : CS -> bool -> bytes -> bytes -> Prop.
Hypothesis dec_ok : DecoderOk CS cparse encoded fresh inside.
Variable max : Z.
Hypothesis max_uint : (max < two64)%Z.
Variable cfg : hcfg.
Variables umax kmax vmax fbs : Z.
Variable defs : list entry.
Hypothesis defs_distinct : distinct_names defs.
Variable W : Type.
Variable on_request : W -> request -> hprog W.
Variable on_error : W -> request -> http_error -> hprog W.
Notation conn := (M_Suit.conn CS W).
Notation serve := (M_Suit.serve cparse max cfg on_request on_error).
Notation close_with := (M_Suit.close_with cparse max on_error).
Notation on_head := (M_Suit.on_head cparse max on_request on_error).
Notation lim := (cfg_limits cfg umax kmax vmax).

Lemma free_phase : forall q r b c rest (h : hprog W), (len (q_text q) <= max)%Z ->
  (if is_chunked (q_head q) then encoded (has_trailer (q_head q)) (q_wire q) (q_text q)
   else q_wire q = q_text q /\ announced (q_head q) = len (q_text q) /\ (len (q_text q) <= max_alloc)%Z) ->
  Shows (q_head q) r -> QueryFresh (r_query r) ->
  fresh (bd_cs b) -> stream c = q_wire q ++ rest -> writes_ok c -> Willing fbs h ->
  exists resp w r' b' c', run_handler cparse max h r (body_init b r) c = HDone resp w r' b' c' /\
    ((exists v evs wrote, FSteps (more_of (q_head q)) rest h r (Open (fresh_view (q_text q))) (Returns resp w) r' (Over v evs wrote) /\
        r_hijacked r' = true /\ cl_out c' = cl_out c ++ wrote /\ stream c' = net_data evs) \/
     (HRun (more_of (q_head q)) h r (fresh_view (q_text q)) resp w r' /\ kept c c' /\
      r_hijacked r' = false /\ r_upgrade r' = r_upgrade r /\ QueryFresh (r_query r') /\ (forall f, resp = Some f -> Sendable fbs f) /\
      forall c2, same_input c' c2 -> exists b3 c3, request_clear_full cparse max r' b' c2 = (Some None, request_clear r', b3, c3) /\
        stream c3 = rest /\ fresh (bd_cs b3) /\ kept c2 c3)).
Proof.
  intros q r b c rest h G4 G5 (r0 & M & V & Hj) Hq Hf Hs Hwr Ho.
  assert (Hch : enc_chunked (r_encoding r) = is_chunked (q_head q)). { rewrite (sv_encoding _ _ V), (mn_chunked _ _ _ M). reflexivity. }
  assert (Htr : enc_trailer (r_encoding r) = has_trailer (q_head q)). { rewrite (sv_encoding _ _ V), (mn_trailer _ _ _ M). apply orb_false_r. }
  assert (Hcl : r_content_length r = announced (q_head q)). { rewrite (sv_clen _ _ V), (mn_clen _ _ _ M). reflexivity. }
  destruct (init_stash CS b r) as [Hp He].
  unfold more_of. destruct (is_chunked (q_head q)) eqn:Ec.
  - pose (Inv := CInv CS inside max rest). pose (End := CEnd CS fresh rest).
    assert (MI : forall b c c' l, same_input c c' -> Inv b c l -> Inv b c' l).
    { intros b0 c0 c1 l Hi (A1 & A2 & A3 & A4 & w0 & A5 & A6 & A7). repeat split; auto. exists w0. rewrite (same_stream _ _ Hi). auto. }
    assert (ME : forall b c c', same_input c c' -> End b c -> End b c').
    { intros b0 c0 c1 Hi (A1 & A2 & A3). repeat split; auto. rewrite (same_stream _ _ Hi). auto. }
    assert (ER : forall b c, End b c -> stream c = rest). { intros b0 c0 HE. apply HE. }
    assert (R0 : Rep CS Inv End (body_init b r) c (fresh_view (q_text q))).
    { constructor; cbn; auto; try discriminate. left. split; [reflexivity|]. eapply c_init; eauto. rewrite Htr. exact G5. }
    pose proof (L_Body2.chunked_step CS cparse encoded fresh inside dec_ok max max_uint rest) as Hstep.
    assert (H0 : Holds CS Inv End c (body_init b r) c (Open (fresh_view (q_text q)))) by (split; [exact Hwr|]; split; [exact R0|reflexivity]).
    assert (Hn : false = true -> is_over (Open (fresh_view (q_text q))) = true) by discriminate.
    destruct (free_ok CS cparse max Inv End any_text Hstep (c_inv_eof CS inside max rest) (c_end_eof CS fresh rest)
      (c_inv_full CS inside max rest) (c_end_full CS fresh rest) (c_inv_stash CS inside max rest) (c_end_stash CS fresh rest) (c_inv_alloc CS inside max rest)
      rest ER W (CanBeSent fbs) false false h Ho c r (body_init b r) c (Open (fresh_view (q_text q))) H0 Hn Hj Hq) as (o & r' & b' & c' & m' & K1 & K2 & K3 & K4 & K5 & K6 & K7 & K8 & K9).
    destruct o as [resp w|]; [|discriminate]. exists resp, w, r', b', c'. split; [exact K1|]. destruct K4 as [K4 K10]. destruct m' as [v'|v' evs ws].
    2: { left. exists v', evs, ws. destruct K10 as (_ & <- & K10). split; [exact K3|]. split; [exact K6|]. split; [exact K10|]. symmetry. apply events_stream. }
    right. destruct K10 as [K10 _]. split; [exists v'; eapply open_steps; [exact K3|reflexivity|reflexivity]|]. split; [apply K9; reflexivity|]. split; [exact K6|]. split; [congruence|]. split; [exact K8|].
    split; [exact K2|]. intros c2 Hi. assert (R2 : Rep CS Inv End b' c2 v') by (eapply rep_moved; eassumption).
    destruct (rep_discard CS cparse max Inv End any_text Hstep (c_inv_eof CS inside max rest) (c_end_eof CS fresh rest)
      (c_inv_full CS inside max rest) (c_end_full CS fresh rest) (c_inv_stash CS inside max rest) (c_end_stash CS fresh rest) (c_inv_alloc CS inside max rest)
      _ _ _ R2) as (b3 & c3 & D1 & D2 & D3).
    exists b3, c3. unfold request_clear_full. rewrite D1. split; [reflexivity|]. split; [apply D2|]. split; [apply D2|exact D3].
  - destruct G5 as (Gw & Ga & Gm). rewrite Gw in Hs.
    pose (Inv := PInv CS max rest (bd_cs b)). pose (End := PEnd CS rest (bd_cs b)).
    assert (MI : forall b c c' l, same_input c c' -> Inv b c l -> Inv b c' l).
    { intros b0 c0 c1 l Hi (A1 & A2 & A3 & A4 & A5 & A6 & A7). repeat split; auto. rewrite (same_stream _ _ Hi). auto. }
    assert (ME : forall b c c', same_input c c' -> End b c -> End b c').
    { intros b0 c0 c1 Hi (A1 & A2 & A3). repeat split; auto. rewrite (same_stream _ _ Hi). auto. }
    assert (ER : forall b c, End b c -> stream c = rest). { intros b0 c0 HE. apply HE. }
    assert (R0 : Rep CS Inv End (body_init b r) c (fresh_view (q_text q))).
    { constructor; cbn; auto; try discriminate. left. split; [reflexivity|]. apply p_init; auto. congruence. }
    pose proof (L_Body2.plain_step CS cparse max rest (bd_cs b)) as Hstep.
    assert (H0 : Holds CS Inv End c (body_init b r) c (Open (fresh_view (q_text q)))) by (split; [exact Hwr|]; split; [exact R0|reflexivity]).
    assert (Hn : false = true -> is_over (Open (fresh_view (q_text q))) = true) by discriminate.
    destruct (free_ok CS cparse max Inv End not_done Hstep (p_inv_eof CS max rest _) (p_end_eof CS rest _)
      (p_inv_full CS max rest _) (p_end_full CS rest _) (p_inv_stash CS max rest _) (p_end_stash CS rest _) (p_inv_alloc CS max rest _)
      rest ER W (CanBeSent fbs) false false h Ho c r (body_init b r) c (Open (fresh_view (q_text q))) H0 Hn Hj Hq) as (o & r' & b' & c' & m' & K1 & K2 & K3 & K4 & K5 & K6 & K7 & K8 & K9).
    destruct o as [resp w|]; [|discriminate]. exists resp, w, r', b', c'. split; [exact K1|]. destruct K4 as [K4 K10]. destruct m' as [v'|v' evs ws].
    2: { left. exists v', evs, ws. destruct K10 as (_ & <- & K10). split; [exact K3|]. split; [exact K6|]. split; [exact K10|]. symmetry. apply events_stream. }
    right. destruct K10 as [K10 _]. split; [exists v'; eapply open_steps; [exact K3|reflexivity|reflexivity]|]. split; [apply K9; reflexivity|]. split; [exact K6|]. split; [congruence|]. split; [exact K8|].
    split; [exact K2|]. intros c2 Hi. assert (R2 : Rep CS Inv End b' c2 v') by (eapply rep_moved; eassumption).
    destruct (rep_discard CS cparse max Inv End not_done Hstep (p_inv_eof CS max rest _) (p_end_eof CS rest _)
      (p_inv_full CS max rest _) (p_end_full CS rest _) (p_inv_stash CS max rest _) (p_end_stash CS rest _) (p_inv_alloc CS max rest _)
      _ _ _ R2) as (b3 & c3 & D1 & D2 & D3).
    exists b3, c3. unfold request_clear_full. rewrite D1. split; [reflexivity|]. split; [apply D2|]. split; [|exact D3].
    destruct D2 as (_ & _ & ->). exact Hf.
Qed.

Lemma free_exchange_one : forall past ups (st : conn) q rest,
  (forall w r, Shows (q_head q) r -> Willing fbs (on_request w r)) ->
  Amid umax kmax vmax fbs defs fresh past ups st -> SoundRequest encoded lim max q -> stream (k_client st) = wire q ++ rest ->
  (exists n r resp r' v evs wrote st1, Shows (q_head q) r /\
     FSteps (more_of (q_head q)) rest (on_request (k_world st) r) r (Open (fresh_view (q_text q))) (Returns resp (k_world st1)) r' (Over v evs wrote) /\
     cl_out (k_client st1) = cl_out (k_client st) ++ wrote /\ stream (k_client st1) = net_data evs /\
     forall fuel, serve (n + fuel)%nat st = (EndHijack, st1)) \/
  exists n resp w1 r' out past' ups' st1, Answered on_request (k_world st) q resp w1 r' /\
    Replies defs past ups (q_head q) r' (not_nil resp) out past' ups' /\
    cl_out (k_client st1) = cl_out (k_client st) ++ out /\ k_world st1 = w1 /\
    ((goes_on (q_head q) r' (not_nil resp) /\
      Amid umax kmax vmax fbs defs fresh past' ups' st1 /\ stream (k_client st1) = rest /\
      forall fuel, serve (n + fuel)%nat st = serve fuel st1) \/
     (~ goes_on (q_head q) r' (not_nil resp) /\ forall fuel, serve (n + fuel)%nat st = close_with EndWrite st1)).
Proof.
  intros past ups st q rest willing Ha G Hs. pose proof G as [G1 G2 G4 G5]. pose proof Ha as [[B1 B2 B3 B4 B5 B6] _].
  unfold wire in Hs. rewrite <- app_assoc in Hs. rewrite <- reads_concat in Hs.
  destruct (segmentation cfg umax kmax vmax _ _ _ _ B1 G1 G2 Hs) as (p' & extra & rs & F1 & F2 & F3 & F4 & F5).
  destruct (serve_done CS cparse max cfg W on_request on_error _ st p' extra rs eq_refl F1) as (n & c1 & R1 & R2 & R3 & R4).
  destruct (shows cfg umax kmax vmax _ _ G1 G2 B2) as [Sh Qf]. rewrite <- F5 in Sh, Qf.
  set (r := p_req p') in *.
  destruct G1 as (Gm & Gp & _).
  destruct (announce CS fresh umax kmax vmax fbs defs defs_distinct W past ups st (q_head q) r Ha Sh Gp) as (s & pre & version & past' & ups' & text & An & Vu & Sv & Bt & Pr & Rp & Go).
  assert (Hst : stream (client_unread c1 extra) = q_wire q ++ rest).
  { rewrite stream_unread by exact R2. rewrite <- (reads_concat c1), R1. exact F2. }
  assert (Hwok1 : writes_ok (client_unread c1 extra)).
  { unfold writes_ok in *. unfold client_unread. cbn [cl_wres]. destruct R3 as [_ ->]. exact B6. }
  destruct (free_phase q r (k_body st) (client_unread c1 extra) rest (on_request (k_world st) r) G4 G5 Sh Qf B5 Hst Hwok1 (willing _ _ Sh))
    as (resp & w1 & r' & b' & c' & K1 & [(v & evs & wrote & K2 & K3 & K4 & K5)|(K2 & K3 & K4 & K5 & K6 & K7 & K8)]).
  { left. exists (S n), r, resp, r', v, evs, wrote, (Conn (set_p_req r' p') s c' b' pre w1).
    split; [exact Sh|]. split; [exact K2|]. cbn [k_client]. split; [rewrite K4; unfold client_unread; cbn [cl_out]; destruct R3 as [-> _]; reflexivity|].
    split; [exact K5|]. intros fuel. rewrite R4.
    unfold M_Suit.on_head. cbn [k_parser set_k_parser set_k_client k_client k_ser k_body k_pre k_world]. fold r. rewrite An, K1, K3. reflexivity. }
  right.
  rewrite (shown_wish _ _ Sh) in K5.
  destruct (write_response version r' (not_nil resp) s c') as [[[res s'] c''] f''] eqn:Ew.
  assert (Hwok : writes_ok c').
  { unfold writes_ok in *. destruct K3 as [_ ->]. exact Hwok1. }
  assert (Hsd : Sendable fbs (not_nil resp)). { destruct resp as [f|]; [apply K7; reflexivity|apply Sd_plain; reflexivity]. }
  destruct (write_sent_behind _ _ _ _ _ _ _ _ _ _ _ _ Sv defs_distinct Vu Hwok Hsd Ew) as (first & restw & S1 & S2 & S3).
  rewrite Bt in S2. rewrite K5 in S3.
  destruct (write_response_input _ _ _ _ _ _ _ _ _ Ew) as [I1 I2].
  assert (Hout : cl_out c'' = cl_out (k_client st) ++ (text ++ first) :: restw).
  { rewrite S2. destruct K3 as [-> _]. unfold client_unread. cbn [cl_out]. destruct R3 as [-> _]. reflexivity. }
  assert (Hoh : on_head (set_k_parser p' (set_k_client c1 st)) extra =
    match res with
    | WPanic => inl (EndPanic, Conn (set_p_req r' p') s' c'' b' pre w1)
    | WStuck => inl (EndStuck, Conn (set_p_req r' p') s' c'' b' pre w1)
    | WClose | WNet => inl (close_with EndWrite (Conn (set_p_req r' p') s' c'' b' pre w1))
    | WOk => let '(res2, r2, b2, c2) := request_clear_full cparse max r' b' c'' in
             match res2 with
             | Some None => inr (Conn (set_p_req r2 p') s' c2 b2 pre w1)
             | Some (Some _) => inl (close_with EndClear (Conn (set_p_req r2 p') s' c2 b2 pre w1))
             | None => inl (EndStuck, Conn (set_p_req r2 p') s' c2 b2 pre w1)
             end
    end).
  { unfold M_Suit.on_head. cbn [k_parser set_k_parser set_k_client k_client k_ser k_body k_pre k_world]. fold r. rewrite An.
    rewrite K1, K4, Ew. reflexivity. }
  pose proof (Rp r' (not_nil resp) first restw S1) as Rp1.
  destruct S3 as [[-> So] | [-> So]]; rewrite Go in So.
  - destruct (K8 c'' I1) as (b3 & c3 & D1 & D2 & D3 & D4).
    rewrite D1 in Hoh. exists (S n), resp, w1, r', ((text ++ first) :: restw), (past' ++ names (not_nil resp)), ups', (Conn (set_p_req (request_clear r') p') s' c3 b3 pre w1).
    split; [exists r; split; [exact Sh|exact K2]|]. split; [exact Rp1|]. cbn [k_client k_world].
    split; [destruct D4 as [-> _]; exact Hout|]. split; [reflexivity|]. left. split; [exact So|]. split; [|split; [exact D2|]].
    + split; [|exact Pr]. constructor; cbn [k_parser k_ser k_body k_client].
      * exact F3.
      * right. exists r'. cbn [set_p_req p_req]. repeat split; assumption.
      * eapply Sv_write; [exact Sv|exact Ew].
      * eapply write_clears. exact Ew.
      * exact D3.
      * unfold writes_ok in *. destruct D4 as [_ ->]. apply I2. exact Hwok.
    + intros fuel. rewrite R4, Hoh. reflexivity.
  - exists (S n), resp, w1, r', ((text ++ first) :: restw), (past' ++ names (not_nil resp)), ups', (Conn (set_p_req r' p') s' c'' b' pre w1).
    split; [exists r; split; [exact Sh|exact K2]|]. split; [exact Rp1|]. split; [exact Hout|]. split; [reflexivity|].
    right. split; [exact So|]. intros fuel. rewrite R4, Hoh. reflexivity.
Qed.

Lemma free_exchange : forall reqs past ups (st : conn) tail,
  (forall q w r, In q reqs -> Shows (q_head q) r -> Willing fbs (on_request w r)) ->
  Amid umax kmax vmax fbs defs fresh past ups st -> Forall (SoundRequest encoded lim max) reqs ->
  stream (k_client st) = concat (map wire reqs) ++ tail ->
  (exists n st1, Seized defs (Answered on_request) (GivenAs on_request) reqs tail past ups st st1 /\ forall fuel, serve (n + fuel)%nat st = (EndHijack, st1)) \/
  exists n outs closed st1, Exchange defs (Answered on_request) reqs (k_world st) past ups outs (k_world st1) closed /\
    cl_out (k_client st1) = cl_out (k_client st) ++ outs /\
    match closed with
    | None => (exists past' ups', Amid umax kmax vmax fbs defs fresh past' ups' st1) /\ stream (k_client st1) = tail /\
              forall fuel, serve (n + fuel)%nat st = serve fuel st1
    | Some _ => forall fuel, serve (n + fuel)%nat st = close_with EndWrite st1
    end.
Proof.
  induction reqs as [|q reqs IH]; intros past ups st tail Ho HB Hg Hs.
  - right. exists 0%nat, [], None, st. split; [apply Ex_end|]. split; [symmetry; apply app_nil_r|].
    split; [eauto|]. split; [exact Hs|]. reflexivity.
  - inversion Hg as [|? ? G Hg']; subst. cbn [map concat] in Hs. rewrite <- app_assoc in Hs.
    destruct (free_exchange_one past ups st q _ (fun w r => Ho q w r (or_introl eq_refl)) HB G Hs)
      as [(n & r & resp & r' & v & evs & wrote & st1 & O1 & O2 & O3 & O4 & O5)
         |(n & resp & w1 & r' & out & past' & ups' & st1 & O1 & O3 & O4 & O5 & [(P1 & P2 & P3 & P4) | (P1 & P2)])].
    + left. exists n, st1. split; [|exact O5]. exists [], q, reqs, [], (k_world st), (on_request (k_world st) r), r, resp, r', v, evs, wrote.
      split; [reflexivity|]. split; [apply Ex_end|]. split; [split; [exact O1|reflexivity]|]. split; [exact O2|]. split; [exact O3|exact O4].
    + destruct (IH _ _ st1 tail (fun q0 w r Hi => Ho q0 w r (or_intror Hi)) P2 Hg' P3)
        as [(m & st2 & (before & q1 & after & outs & w2 & h1 & r1 & resp1 & r1' & v & evs & wrote & Q1 & Q2 & Q3 & Q4 & Q5 & Q6) & Q7)
           |(m & outs & closed & st2 & Q1 & Q2 & Q3)].
      * left. exists (n + m)%nat, st2. split; [|intros fuel; rewrite <- Nat.add_assoc, P4; apply Q7].
        exists (q :: before), q1, after, (out ++ outs), w2, h1, r1, resp1, r1', v, evs, wrote. rewrite Q1.
        split; [reflexivity|]. split; [rewrite O5 in Q2; eapply Ex_open; eassumption|]. split; [exact Q3|]. split; [exact Q4|].
        split; [|exact Q6]. rewrite Q5, O4, <- !app_assoc. reflexivity.
      * right. exists (n + m)%nat, (out ++ outs), closed, st2. split; [rewrite O5 in Q1; eapply Ex_open; eassumption|].
        split; [rewrite Q2, O4, app_assoc; reflexivity|]. destruct closed as [l|].
        -- intros fuel. rewrite <- Nat.add_assoc, P4. apply Q3.
        -- destruct Q3 as (Q3 & Q4 & Q5). split; [exact Q3|]. split; [exact Q4|]. intros fuel. rewrite <- Nat.add_assoc, P4. apply Q5.
    + right. exists n, out, (Some reqs), st1. split; [rewrite O5; eapply Ex_close; eassumption|]. split; [exact O4|]. exact P2.
Qed.

Theorem free_connection : forall reqs past ups (st : conn) tail,
  (forall q w r, In q reqs -> Shows (q_head q) r -> Willing fbs (on_request w r)) ->
  Amid umax kmax vmax fbs defs fresh past ups st -> Forall (SoundRequest encoded lim max) reqs -> Unfinished lim tail ->
  stream (k_client st) = concat (map wire reqs) ++ tail ->
  (exists n st1, Seized defs (Answered on_request) (GivenAs on_request) reqs tail past ups st st1 /\ forall fuel, (n <= fuel)%nat -> serve fuel st = (EndHijack, st1)) \/
  exists n outs closed st1, Exchange defs (Answered on_request) reqs (k_world st) past ups outs (k_world st1) closed /\
    cl_out (k_client st1) = cl_out (k_client st) ++ outs /\
    forall fuel, (n <= fuel)%nat ->
      serve fuel st = close_with (match closed with None => EndRead | Some _ => EndWrite end) st1.
Proof.
  intros reqs past ups st tail Ho HB Hg (h & more & U1 & U2 & U3 & U4) Hs.
  destruct (free_exchange _ _ _ _ _ Ho HB Hg Hs) as [(n & st1 & C1 & C2)|(n & outs & closed & st1 & C1 & C2 & C3)].
  { left. exists n, st1. split; [exact C1|]. intros fuel Hf. replace fuel with (n + (fuel - n))%nat by lia. apply C2. }
  right. destruct closed as [l|].
  - exists n, outs, (Some l), st1. split; [exact C1|]. split; [exact C2|]. intros fuel Hf.
    replace fuel with (n + (fuel - n))%nat by lia. apply C3.
  - destruct C3 as ((past' & ups' & HB1 & _) & C4 & C5). destruct HB1 as [B1 _ _ _ _ _].
    assert (Hpre : concat (reads_of (k_client st1)) ++ more = render_head h) by (rewrite reads_concat, C4; exact U4).
    destruct (prefix_pending cfg umax kmax vmax _ h _ more B1 U1 U2 Hpre U3) as (p' & Hf).
    destruct (serve_pending CS cparse max cfg W on_request on_error _ st1 p' eq_refl Hf) as (m & c2 & M1 & M2).
    exists (n + S m)%nat, outs, None, (set_k_parser p' (set_k_client c2 st1)).
    split; [exact C1|]. split; [cbn; destruct M1 as [-> _]; exact C2|]. intros fuel Hfu.
    replace fuel with (n + (S m + (fuel - (n + S m))))%nat by lia. rewrite C5, M2. reflexivity.
Qed.
End Serve.
