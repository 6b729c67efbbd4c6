(* What a connection does with any bytes behind the last request, as they are read. *)
From Verif Require Import M_Base M_Status M_Method M_Proto M_KeyValue M_Query M_Request M_Parser M_Client M_Body
  M_Response M_Serializer M_Suit M_Path M_Radix M_Router S_KeyValue S_Chunk S_Head S_Parser S_Body S_Response S_Split S_Verdict S_Arrive S_Conn S_Unversioned S_Routes S_Router S_Serve
  L_Base L_Head L_Router L_Router2 L_Router4 L_Router5 L_Router6 L_Router7 L_Conn L_Conn2 L_Conn3 L_Verdict L_Serve L_VerdictConn L_Arrive6.

Theorem heard_after : forall CS cparse encoded fresh inside,
  DecoderOk CS cparse encoded fresh inside -> forall max, (max < two64)%Z ->
  forall cfg umax kmax vmax fbs defs, (0 <= umax)%Z -> distinct_names defs ->
  forall W (os : list (list nat * rop W)) x, Running os x -> PlainAliases os -> OrdinaryApp fbs os ->
  forall reqs past (st : conn CS (world W)) tail, Routable os reqs ->
  Between umax kmax vmax fbs defs fresh past st ->
  Forall (GoodRequest encoded (cfg_limits cfg umax kmax vmax) max) reqs ->
  stream (k_client st) = concat (map wire reqs) ++ tail ->
  exists n outs closed st1, Dialogue defs os reqs (k_world st) past outs (k_world st1) closed /\
    cl_out (k_client st1) = cl_out (k_client st) ++ outs /\
    match closed with
    | Some _ => forall fuel, (n <= fuel)%nat -> serve cparse max cfg (on_request x) (on_error x) fuel st = close_with cparse max (on_error x) EndWrite st1
    | None => concat (reads_of (k_client st1)) = tail /\
        forall v, HeadHeard (cfg_limits cfg umax kmax vmax) (reads_of (k_client st1)) v ->
        match v with
        | VTaken _ _ => True
        | VMore => exists m st2, cl_out (k_client st2) = cl_out (k_client st1) /\ k_world st2 = k_world st1 /\
            forall fuel, (m <= fuel)%nat -> serve cparse max cfg (on_request x) (on_error x) fuel st = close_with cparse max (on_error x) EndRead st2
        | VPanics => exists m st2, cl_out (k_client st2) = cl_out (k_client st1) /\ k_world st2 = k_world st1 /\
            forall fuel, (m <= fuel)%nat -> serve cparse max cfg (on_request x) (on_error x) fuel st = (EndPanic, st2)
        | VRefused named e => exists q r1, r_proto r1 = or_default named (r_proto (p_req (k_parser st1))) /\ GivenTo os q e r1 /\
            (Detached (error_choice os (he_code e) (k_world st1) r1) -> exists resp w' r' out m st2 past',
               detached_result (error_choice os (he_code e) (k_world st1) r1) r1 = Some (resp, w', r') /\
               (forall fuel, (m <= fuel)%nat -> serve cparse max cfg (on_request x) (on_error x) fuel st = (EndParse, st2)) /\
               k_world st2 = w' /\ cl_out (k_client st2) = cl_out (k_client st1) ++ [out] /\
               SentIn defs past' (r_proto r') r' (not_nil resp) [out])
        end
    end.
Proof.
  intros CS cparse encoded fresh inside HD max Hmax cfg umax kmax vmax fbs defs HU Hdefs W os x HR HA HO reqs past st tail HRo HB HG HS.
  destruct (conversation CS cparse encoded fresh inside HD max Hmax cfg umax kmax vmax fbs defs Hdefs (world W) (on_request x) (on_error x) reqs past st tail
    (ordinary_router W os x HR HA fbs reqs HO HRo) HB HG HS) as (n & outs & closed & st1 & C1 & C2 & C3).
  assert (HDi : Dialogue defs os reqs (k_world st) past outs (k_world st1) closed) by (eapply dialogue; try eassumption; auto).
  exists n, outs, closed, st1. split; [exact HDi|]. split; [exact C2|]. destruct closed as [l|].
  { intros fuel Hf. replace fuel with (n + (fuel - n))%nat by lia. apply C3. }
  destruct C3 as ((past' & HB1) & C4 & C5). split; [rewrite reads_concat; exact C4|]. intros v HV.
  pose proof (head_follow cfg umax kmax vmax HU _ v HV (k_parser st1) (bt_ready _ _ _ _ _ _ _ _ HB1)) as O.
  destruct v as [|h rest|named e|]; cbn [Follows] in O; [| exact I | |].
  - destruct O as (p & O). destruct (serve_pending CS cparse max cfg (world W) (on_request x) (on_error x) _ st1 p eq_refl O) as (m & c1 & K1 & K2).
    exists (n + S m)%nat, (set_k_parser p (set_k_client c1 st1)). split; [exact (proj1 K1)|]. split; [reflexivity|]. intros fuel Hf.
    replace fuel with (n + (S m + (fuel - n - S m)))%nat by lia. rewrite C5. apply K2.
  - destruct O as (q & O & Hq). destruct (feed cfg (k_parser st1) (reads_of (k_client st1))) as [res rs] eqn:EF. cbn [fst] in O. subst res.
    pose proof (parse_errors _ _ _ _ _ _ EF) as He. destruct (refusal_own W os x (k_world st1) (p_req q) e HR HA He) as (r1 & G1 & G2 & G3).
    exists (p_req q), r1. split; [rewrite (given_proto _ _ _ _ _ G1); exact Hq|]. split; [exact G1|]. intros HDt.
    assert (HDt' : Detached (on_error x (k_world st1) (p_req q) e)) by (rewrite G3; apply Dt_update, Dt_update; exact HDt).
    destruct (bad_head CS cparse fresh max cfg umax kmax vmax fbs defs Hdefs (world W) (on_request x) (on_error x) past' st1 q e rs HB1 HDt' EF)
      as (m & resp & w' & r' & out & st2 & D1 & D2 & D3 & D4 & D5).
    rewrite G3 in D1. unfold detached_result in D1. cbn [aloof_run] in D1. rewrite G2 in D1.
    exists resp, w', r', out, (n + m)%nat, st2, past'. split; [exact D1|]. split; [|split; [exact D3|split; [exact D4|exact D5]]].
    intros fuel Hf. replace fuel with (n + (fuel - n))%nat by lia. rewrite C5. apply D2. lia.
  - destruct (feed cfg (k_parser st1) (reads_of (k_client st1))) as [res rs] eqn:EF. cbn [fst] in O. subst res.
    destruct (serve_panic CS cparse max cfg (world W) (on_request x) (on_error x) _ st1 rs eq_refl EF) as (m & st2 & K1 & K2 & K3).
    exists (n + S m)%nat, st2. split; [exact (proj1 K1)|]. split; [exact K2|]. intros fuel Hf.
    replace fuel with (n + (S m + (fuel - n - S m)))%nat by lia. rewrite C5. apply K3.
Qed.
