(* Lemmas: whole connections whose handlers may panic. *)
From Verif Require Import M_Base M_Status M_Method M_Proto M_KeyValue M_Query M_Request M_Parser M_Client M_Body
  M_Response M_Serializer M_Suit S_KeyValue S_Chunk S_Head S_Parser S_Body S_Response S_Conn S_Crash
  L_Base L_Head L_Body L_Body2 L_Body3 L_BodyProps L_Response L_Response2 L_Response3 L_Attach L_Conn L_Conn2.

Local Arguments client_unread : simpl never.
Local Arguments write_response : simpl never.

Section Serve.
Variable CS : Type.
Variable cparse : CS -> bytes -> bool -> CS * (bytes * bytes * option cerr).
Variable encoded : bool -> bytes -> bytes -> Prop.
Variable fresh : CS -> Prop.
Variable inside : CS -> bool -> bytes -> bytes -> Prop.
Hypothesis dec_ok : DecoderOk CS cparse encoded fresh inside.
Variable max : Z.
Hypothesis max_uint : (max < two64)%Z.
Variable cfg : hcfg.
Variables umax kmax vmax fbs : Z.
Variable defs : list entry.
Hypothesis defs_distinct : distinct_names defs.
Variable W : Type.
Variable on_request : W -> request -> hprog W.
Variable on_error : W -> request -> http_error -> hprog W.
Notation conn := (M_Suit.conn CS W).
Notation serve := (M_Suit.serve cparse max cfg on_request on_error).
Notation on_head := (M_Suit.on_head cparse max on_request on_error).
Notation on_bad_head := (M_Suit.on_bad_head cparse max on_error).
Notation close_with := (M_Suit.close_with cparse max on_error).
Notation lim := (cfg_limits cfg umax kmax vmax).

Lemma crash_body_phase : forall q r b c rest (h : hprog W), (len (q_text q) <= max)%Z ->
  (if is_chunked (q_head q) then encoded (has_trailer (q_head q)) (q_wire q) (q_text q)
   else q_wire q = q_text q /\ announced (q_head q) = len (q_text q) /\ (len (q_text q) <= max_alloc)%Z) ->
  Shows (q_head q) r -> QueryFresh (r_query r) ->
  fresh (bd_cs b) -> stream c = q_wire q ++ rest -> Tame (CanBeSent fbs) true h ->
  (exists r' b' c' v', run_handler cparse max h r (body_init b r) c = HPanic r' b' c' /\
    HSteps (more_of (q_head q)) h r (fresh_view (q_text q)) Panics r' v') \/
  exists resp w r' b' c', run_handler cparse max h r (body_init b r) c = HDone resp w r' b' c' /\
    HRun (more_of (q_head q)) h r (fresh_view (q_text q)) resp w r' /\ kept c c' /\
    r_hijacked r' = false /\ r_upgrade r' = r_upgrade r /\ QueryFresh (r_query r') /\ (forall f, resp = Some f -> Sendable fbs f) /\
    forall c2, same_input c' c2 -> exists b3 c3, request_clear_full cparse max r' b' c2 = (Some None, request_clear r', b3, c3) /\
      stream c3 = rest /\ fresh (bd_cs b3) /\ kept c2 c3.
Proof.
  intros q r b c rest h G4 G5 (r0 & M & V & Hj) Hq Hf Hs Ho.
  assert (Hch : enc_chunked (r_encoding r) = is_chunked (q_head q)). { rewrite (sv_encoding _ _ V), (mn_chunked _ _ _ M). reflexivity. }
  assert (Htr : enc_trailer (r_encoding r) = has_trailer (q_head q)). { rewrite (sv_encoding _ _ V), (mn_trailer _ _ _ M). apply orb_false_r. }
  assert (Hcl : r_content_length r = announced (q_head q)). { rewrite (sv_clen _ _ V), (mn_clen _ _ _ M). reflexivity. }
  destruct (init_stash CS b r) as [Hp He].
  unfold more_of. destruct (is_chunked (q_head q)) eqn:Ec.
  - pose (Inv := CInv CS inside max rest). pose (End := CEnd CS fresh rest).
    assert (MI : forall b c c' l, same_input c c' -> Inv b c l -> Inv b c' l).
    { intros b0 c0 c1 l Hi (A1 & A2 & A3 & A4 & w0 & A5 & A6 & A7). repeat split; auto. exists w0. rewrite (same_stream _ _ Hi). auto. }
    assert (ME : forall b c c', same_input c c' -> End b c -> End b c').
    { intros b0 c0 c1 Hi (A1 & A2 & A3). repeat split; auto. rewrite (same_stream _ _ Hi). auto. }
    assert (R0 : Rep CS Inv End (body_init b r) c (fresh_view (q_text q))).
    { constructor; cbn; auto; try discriminate. left. split; [reflexivity|]. eapply c_init; eauto. rewrite Htr. exact G5. }
    pose proof (L_Body2.chunked_step CS cparse encoded fresh inside dec_ok max max_uint rest) as Hstep.
    destruct (tame_ok CS cparse max Inv End any_text Hstep (c_inv_eof CS inside max rest) (c_end_eof CS fresh rest)
      (c_inv_full CS inside max rest) (c_end_full CS fresh rest) (c_inv_stash CS inside max rest) (c_end_stash CS fresh rest) (c_inv_alloc CS inside max rest)
      W (CanBeSent fbs) true h Ho r (body_init b r) c _ R0 Hj Hq) as (o & r' & b' & c' & v' & K1 & K8 & K2 & K3 & K4 & K5 & K6 & K7).
    destruct o as [resp w|]; cbn [ended allowed] in K1, K8; [right|left; exists r', b', c', v'; split; [exact K1|exact K2]].
    exists resp, w, r', b', c'. split; [exact K1|]. split; [exists v'; exact K2|]. split; [exact K4|]. split; [exact K5|]. split; [congruence|]. split; [exact K7|].
    split; [exact K8|]. intros c2 Hi. pose proof (rep_moved CS _ _ _ _ _ _ MI ME Hi K3) as R2.
    destruct (rep_discard CS cparse max Inv End any_text Hstep (c_inv_eof CS inside max rest) (c_end_eof CS fresh rest)
      (c_inv_full CS inside max rest) (c_end_full CS fresh rest) (c_inv_stash CS inside max rest) (c_end_stash CS fresh rest) (c_inv_alloc CS inside max rest)
      _ _ _ R2) as (b3 & c3 & D1 & D2 & D3).
    exists b3, c3. unfold request_clear_full. rewrite D1. split; [reflexivity|]. split; [apply D2|]. split; [apply D2|exact D3].
  - destruct G5 as (Gw & Ga & Gm). rewrite Gw in Hs.
    pose (Inv := PInv CS max rest (bd_cs b)). pose (End := PEnd CS rest (bd_cs b)).
    assert (MI : forall b c c' l, same_input c c' -> Inv b c l -> Inv b c' l).
    { intros b0 c0 c1 l Hi (A1 & A2 & A3 & A4 & A5 & A6 & A7). repeat split; auto. rewrite (same_stream _ _ Hi). auto. }
    assert (ME : forall b c c', same_input c c' -> End b c -> End b c').
    { intros b0 c0 c1 Hi (A1 & A2 & A3). repeat split; auto. rewrite (same_stream _ _ Hi). auto. }
    assert (R0 : Rep CS Inv End (body_init b r) c (fresh_view (q_text q))).
    { constructor; cbn; auto; try discriminate. left. split; [reflexivity|]. apply p_init; auto. congruence. }
    pose proof (L_Body2.plain_step CS cparse max rest (bd_cs b)) as Hstep.
    destruct (tame_ok CS cparse max Inv End not_done Hstep (p_inv_eof CS max rest _) (p_end_eof CS rest _)
      (p_inv_full CS max rest _) (p_end_full CS rest _) (p_inv_stash CS max rest _) (p_end_stash CS rest _) (p_inv_alloc CS max rest _)
      W (CanBeSent fbs) true h Ho r (body_init b r) c _ R0 Hj Hq) as (o & r' & b' & c' & v' & K1 & K8 & K2 & K3 & K4 & K5 & K6 & K7).
    destruct o as [resp w|]; cbn [ended allowed] in K1, K8; [right|left; exists r', b', c', v'; split; [exact K1|exact K2]].
    exists resp, w, r', b', c'. split; [exact K1|]. split; [exists v'; exact K2|]. split; [exact K4|]. split; [exact K5|]. split; [congruence|]. split; [exact K7|].
    split; [exact K8|]. intros c2 Hi. pose proof (rep_moved CS _ _ _ _ _ _ MI ME Hi K3) as R2.
    destruct (rep_discard CS cparse max Inv End not_done Hstep (p_inv_eof CS max rest _) (p_end_eof CS rest _)
      (p_inv_full CS max rest _) (p_end_full CS rest _) (p_inv_stash CS max rest _) (p_end_stash CS rest _) (p_inv_alloc CS max rest _)
      _ _ _ R2) as (b3 & c3 & D1 & D2 & D3).
    exists b3, c3. unfold request_clear_full. rewrite D1. split; [reflexivity|]. split; [apply D2|]. split; [|exact D3].
    destruct D2 as (_ & _ & ->). exact Hf.
Qed.

Lemma crash_one_request : forall past (st : conn) q rest,
  (forall w r, Shows (q_head q) r -> Tame (CanBeSent fbs) true (on_request w r)) ->
  Between umax kmax vmax fbs defs fresh past st -> GoodRequest encoded lim max q -> stream (k_client st) = wire q ++ rest ->
  (exists n r r' v' st1, Shows (q_head q) r /\ HSteps (more_of (q_head q)) (on_request (k_world st) r) r (fresh_view (q_text q)) Panics r' v' /\
     cl_out (k_client st1) = cl_out (k_client st) /\ k_world st1 = k_world st /\ forall fuel, serve (n + fuel)%nat st = (EndPanic, st1)) \/
  exists n r resp w1 r' out st1, Shows (q_head q) r /\
    HRun (more_of (q_head q)) (on_request (k_world st) r) r (fresh_view (q_text q)) resp w1 r' /\
    Sent defs past (h_proto (q_head q)) r' (not_nil resp) out /\
    cl_out (k_client st1) = cl_out (k_client st) ++ out /\ k_world st1 = w1 /\
    ((S_Conn.stays_open (h_proto (q_head q)) r' (not_nil resp) /\
      Between umax kmax vmax fbs defs fresh (past ++ names (not_nil resp)) st1 /\ stream (k_client st1) = rest /\
      forall fuel, serve (n + fuel)%nat st = serve fuel st1) \/
     (~ S_Conn.stays_open (h_proto (q_head q)) r' (not_nil resp) /\ forall fuel, serve (n + fuel)%nat st = close_with EndWrite st1)).
Proof.
  intros past st q rest ordinary [B1 B2 B3 B4 B5 B6] G Hs. pose proof G as [G1 G2 G3 G4 G5].
  unfold wire in Hs. rewrite <- app_assoc in Hs. rewrite <- reads_concat in Hs.
  destruct (segmentation cfg umax kmax vmax _ _ _ _ B1 G1 G2 Hs) as (p' & extra & rs & F1 & F2 & F3 & F4 & F5).
  destruct (serve_done CS cparse max cfg W on_request on_error _ st p' extra rs eq_refl F1) as (n & c1 & R1 & R2 & R3 & R4).
  destruct (shows cfg umax kmax vmax _ _ G1 G2 B2) as [Sh Qf]. rewrite <- F5 in Sh, Qf.
  set (r := p_req p') in *.
  assert (Hup : r_upgrade r = PUnknown). { destruct Sh as (r0 & M & V & _). rewrite (sv_upgrade _ _ V), (mn_upgrade _ _ _ M), G3. reflexivity. }
  assert (Hpr : r_proto r = h_proto (q_head q)). { destruct Sh as (r0 & M & V & _). rewrite (sv_proto _ _ V), (mn_proto _ _ _ M). reflexivity. }
  assert (Hst : stream (client_unread c1 extra) = q_wire q ++ rest).
  { rewrite stream_unread by exact R2. rewrite <- (reads_concat c1), R1. exact F2. }
  destruct (crash_body_phase q r (k_body st) (client_unread c1 extra) rest (on_request (k_world st) r) G4 G5 Sh Qf B5 Hst (ordinary _ _ Sh))
    as [(r' & b' & c' & v' & K1 & K2)|(resp & w1 & r' & b' & c' & K1 & K2 & K3 & K4 & K5 & K6 & K7 & K8)].
  { left. exists (S n), r, r', v', (set_k_parser p' (set_k_client c1 st)). split; [exact Sh|]. split; [exact K2|]. split; [destruct R3 as [<- _]; reflexivity|].
    split; [reflexivity|]. intros fuel. rewrite R4. unfold M_Suit.on_head. cbn [k_parser set_k_parser set_k_client k_client k_ser k_body k_pre k_world]. fold r.
    unfold wants_switch. rewrite Hup, K1. reflexivity. }
  right.
  rewrite Hup in K5.
  destruct (write_response (h_proto (q_head q)) r' (not_nil resp) (k_ser st) c') as [[[res s'] c''] f''] eqn:Ew.
  assert (Hwok : writes_ok c').
  { unfold writes_ok in *. destruct K3 as [_ ->]. unfold client_unread. cbn [cl_wres]. destruct R3 as [_ ->]. exact B6. }
  assert (Hsd : Sendable fbs (not_nil resp)). { destruct resp as [f|]; [apply K7; reflexivity|apply Sd_plain; reflexivity]. }
  destruct G1 as (Gm & Gp & _).
  destruct (write_sent _ _ _ _ _ _ _ _ _ _ _ _ B3 defs_distinct Gp B4 Hwok Hsd K5 Ew) as (out & S1 & S2 & S3).
  destruct (write_response_input _ _ _ _ _ _ _ _ _ Ew) as [I1 I2].
  assert (Hout : cl_out c'' = cl_out (k_client st) ++ out).
  { rewrite S2. destruct K3 as [-> _]. unfold client_unread. cbn [cl_out]. destruct R3 as [-> _]. reflexivity. }
  assert (Hoh : on_head (set_k_parser p' (set_k_client c1 st)) extra =
    match res with
    | WPanic => inl (EndPanic, Conn (set_p_req r' p') s' c'' b' (k_pre st) w1)
    | WStuck => inl (EndStuck, Conn (set_p_req r' p') s' c'' b' (k_pre st) w1)
    | WClose | WNet => inl (close_with EndWrite (Conn (set_p_req r' p') s' c'' b' (k_pre st) w1))
    | WOk => let '(res2, r2, b2, c2) := request_clear_full cparse max r' b' c'' in
             match res2 with
             | Some None => inr (Conn (set_p_req r2 p') s' c2 b2 (k_pre st) w1)
             | Some (Some _) => inl (close_with EndClear (Conn (set_p_req r2 p') s' c2 b2 (k_pre st) w1))
             | None => inl (EndStuck, Conn (set_p_req r2 p') s' c2 b2 (k_pre st) w1)
             end
    end).
  { unfold M_Suit.on_head. cbn [k_parser set_k_parser set_k_client k_client k_ser k_body k_pre k_world]. fold r. unfold wants_switch. rewrite Hup.
    rewrite K1, K4, Hpr, Ew. reflexivity. }
  destruct S3 as [[-> So] | [-> So]].
  - destruct (K8 c'' I1) as (b3 & c3 & D1 & D2 & D3 & D4).
    rewrite D1 in Hoh. exists (S n), r, resp, w1, r', out, (Conn (set_p_req (request_clear r') p') s' c3 b3 (k_pre st) w1).
    split; [exact Sh|]. split; [exact K2|]. split; [exact S1|]. cbn [k_client k_world].
    split; [destruct D4 as [-> _]; exact Hout|]. split; [reflexivity|]. left. split; [exact So|]. split; [|split; [exact D2|]].
    + constructor; cbn [k_parser k_ser k_body k_client].
      * exact F3.
      * right. exists r'. cbn [set_p_req p_req]. repeat split; assumption.
      * eapply Sv_write; [exact B3|exact Ew].
      * eapply write_clears. exact Ew.
      * exact D3.
      * unfold writes_ok in *. destruct D4 as [_ ->]. apply I2. exact Hwok.
    + intros fuel. rewrite R4, Hoh. reflexivity.
  - exists (S n), r, resp, w1, r', out, (Conn (set_p_req r' p') s' c'' b' (k_pre st) w1).
    split; [exact Sh|]. split; [exact K2|]. split; [exact S1|]. split; [exact Hout|]. split; [reflexivity|].
    right. split; [exact So|]. intros fuel. rewrite R4, Hoh. reflexivity.
Qed.


Lemma crash_conversation : forall reqs past (st : conn) tail,
  (forall q w r, In q reqs -> Shows (q_head q) r -> Tame (CanBeSent fbs) true (on_request w r)) ->
  Between umax kmax vmax fbs defs fresh past st -> Forall (GoodRequest encoded lim max) reqs ->
  stream (k_client st) = concat (map wire reqs) ++ tail ->
  (exists n st1, Crashed defs on_request reqs past st st1 /\ forall fuel, serve (n + fuel)%nat st = (EndPanic, st1)) \/
  exists n outs closed st1, Conversation defs on_request reqs (k_world st) past outs (k_world st1) closed /\
    cl_out (k_client st1) = cl_out (k_client st) ++ outs /\
    match closed with
    | None => (exists past', Between umax kmax vmax fbs defs fresh past' st1) /\ stream (k_client st1) = tail /\
              forall fuel, serve (n + fuel)%nat st = serve fuel st1
    | Some _ => forall fuel, serve (n + fuel)%nat st = close_with EndWrite st1
    end.
Proof.
  induction reqs as [|q reqs IH]; intros past st tail Ho HB Hg Hs.
  - right. exists 0%nat, [], None, st. split; [apply Cv_end|]. split; [symmetry; apply app_nil_r|].
    split; [eauto|]. split; [exact Hs|]. reflexivity.
  - inversion Hg as [|? ? G Hg']; subst. cbn [map concat] in Hs. rewrite <- app_assoc in Hs.
    destruct (crash_one_request past st q _ (fun w r => Ho q w r (or_introl eq_refl)) HB G Hs) as
      [(n & r & r' & v' & st1 & O1 & O2 & O3 & O4 & O5)|(n & r & resp & w1 & r' & out & st1 & O1 & O2 & O3 & O4 & O5 & [(P1 & P2 & P3 & P4) | (P1 & P2)])].
    + left. exists n, st1. split; [|exact O5]. exists [], q, reqs, [], r, r', v'. rewrite O4, app_nil_r.
      split; [reflexivity|]. split; [apply Cv_end|]. split; [exact O3|]. split; [exact O1|exact O2].
    + destruct (IH _ st1 tail (fun q0 w r Hi => Ho q0 w r (or_intror Hi)) P2 Hg' P3) as
        [(m & st2 & (before & q1 & after & outs & r1 & r1' & v1' & Q1 & Q2 & Q3 & Q4 & Q5) & Q6)|(m & outs & closed & st2 & Q1 & Q2 & Q3)].
      * left. exists (n + m)%nat, st2. split; [|intros fuel; rewrite <- Nat.add_assoc, P4; apply Q6].
        exists (q :: before), q1, after, (out ++ outs), r1, r1', v1'. split; [rewrite Q1; reflexivity|].
        split; [rewrite O5 in Q2; eapply Cv_open; eassumption|]. split; [rewrite Q3, O4, app_assoc; reflexivity|]. split; [exact Q4|exact Q5].
      * right. exists (n + m)%nat, (out ++ outs), closed, st2. split; [rewrite O5 in Q1; eapply Cv_open; eassumption|].
        split; [rewrite Q2, O4, app_assoc; reflexivity|]. destruct closed as [l|].
        -- intros fuel. rewrite <- Nat.add_assoc, P4. apply Q3.
        -- destruct Q3 as (Q3 & Q4 & Q5). split; [exact Q3|]. split; [exact Q4|]. intros fuel. rewrite <- Nat.add_assoc, P4. apply Q5.
    + right. exists n, out, (Some reqs), st1. split; [rewrite O5; eapply Cv_close; eassumption|]. split; [exact O4|]. exact P2.
Qed.

(* a connection from its first to its last byte, or to the first panic *)
Theorem crash_connection : forall reqs past (st : conn) tail,
  (forall q w r, In q reqs -> Shows (q_head q) r -> Tame (CanBeSent fbs) true (on_request w r)) ->
  Between umax kmax vmax fbs defs fresh past st -> Forall (GoodRequest encoded lim max) reqs -> Unfinished lim tail ->
  stream (k_client st) = concat (map wire reqs) ++ tail ->
  (exists n st1, Crashed defs on_request reqs past st st1 /\ forall fuel, (n <= fuel)%nat -> serve fuel st = (EndPanic, st1)) \/
  exists n outs closed st1, Conversation defs on_request reqs (k_world st) past outs (k_world st1) closed /\
    cl_out (k_client st1) = cl_out (k_client st) ++ outs /\
    forall fuel, (n <= fuel)%nat ->
      serve fuel st = close_with (match closed with None => EndRead | Some _ => EndWrite end) st1.
Proof.
  intros reqs past st tail Ho HB Hg (h & more & U1 & U2 & U3 & U4) Hs.
  destruct (crash_conversation _ _ _ _ Ho HB Hg Hs) as [(n & st1 & C1 & C2)|(n & outs & closed & st1 & C1 & C2 & C3)].
  { left. exists n, st1. split; [exact C1|]. intros fuel Hf. replace fuel with (n + (fuel - n))%nat by lia. apply C2. }
  right. destruct closed as [l|].
  - exists n, outs, (Some l), st1. split; [exact C1|]. split; [exact C2|]. intros fuel Hf.
    replace fuel with (n + (fuel - n))%nat by lia. apply C3.
  - destruct C3 as ((past' & HB1) & C4 & C5). destruct HB1 as [B1 _ _ _ _ _].
    assert (Hpre : concat (reads_of (k_client st1)) ++ more = render_head h) by (rewrite reads_concat, C4; exact U4).
    destruct (prefix_pending cfg umax kmax vmax _ h _ more B1 U1 U2 Hpre U3) as (p' & Hf).
    destruct (serve_pending CS cparse max cfg W on_request on_error _ st1 p' eq_refl Hf) as (m & c2 & M1 & M2).
    exists (n + S m)%nat, outs, None, (set_k_parser p' (set_k_client c2 st1)).
    split; [exact C1|]. split; [cbn; destruct M1 as [-> _]; exact C2|]. intros fuel Hfu.
    replace fuel with (n + (S m + (fuel - (n + S m))))%nat by lia. rewrite C5, M2. reflexivity.
Qed.
End Serve.
