(* What a connection does with the bytes behind the last request. *)
From Verif Require Import M_Base M_Status M_Method M_Proto M_KeyValue M_Query M_Request M_Parser M_Client M_Body
  M_Response M_Serializer M_Suit M_Path M_Radix M_Router S_KeyValue S_Chunk S_Head S_Parser S_Body S_Response S_Conn S_Unversioned S_Split S_Routes S_Router S_Serve S_Verdict
  L_Base L_Head L_Router L_Router2 L_Router4 L_Router5 L_Router6 L_Router7 L_Conn L_Conn2 L_Conn3 L_Verdict L_Serve.

Section Tail.
Variable CS : Type.
Variable cparse : CS -> bytes -> bool -> CS * (bytes * bytes * option cerr).
Variable max : Z.
Variable cfg : hcfg.
Variable W : Type.
Variable on_request : W -> request -> hprog W.
Variable on_error : W -> request -> http_error -> hprog W.
Notation conn := (M_Suit.conn CS W).
Notation serve := (M_Suit.serve cparse max cfg on_request on_error).

Lemma serve_panic : forall reads (st : conn) rs, reads_of (k_client st) = reads -> feed cfg (k_parser st) reads = (RPanic, rs) ->
  exists n st1, kept (k_client st) (k_client st1) /\ k_world st1 = k_world st /\ forall fuel, serve (S n + fuel)%nat st = (EndPanic, st1).
Proof.
  induction reads as [|d reads IH]; intros st rs Hr Hf; cbn [feed] in Hf; [discriminate|].
  destruct (read_reads _ _ _ Hr) as (c1 & R1 & R2 & R3 & R4).
  destruct (parse cfg (k_parser st) d) as [p1|p1 ex|p1 er| |] eqn:Ep; try discriminate.
  - destruct (IH (set_k_parser p1 (set_k_client c1 st)) rs R2 Hf) as (n & st1 & H3 & H4 & H5).
    exists (S n), st1. split; [eapply kept_trans; [exact R4|exact H3]|]. split; [exact H4|].
    intros fuel. change (S (S n) + fuel)%nat with (S (S n + fuel)). cbn [M_Suit.serve]. rewrite R1. cbn [k_parser set_k_client]. rewrite Ep.
    rewrite H5. reflexivity.
  - exists 0%nat, (set_k_client c1 st). split; [exact R4|]. split; [reflexivity|].
    intros fuel. change (1 + fuel)%nat with (S fuel). cbn [M_Suit.serve]. rewrite R1. cbn [k_parser set_k_client]. rewrite Ep. reflexivity.
Qed.

Variables umax kmax vmax fbs : Z.
Variable defs : list entry.
Variable fresh : CS -> Prop.
Hypothesis defs_distinct : distinct_names defs.
Notation lim := (cfg_limits cfg umax kmax vmax).

Lemma tail_verdict : forall past (st : conn) t v, Between umax kmax vmax fbs defs fresh past st -> stream (k_client st) = t ->
  NamedHead t -> (len (start_part t) <= umax)%Z -> HeadSays lim t v ->
  match v with
  | VTaken _ _ => True
  | VMore => exists n st1, cl_out (k_client st1) = cl_out (k_client st) /\ k_world st1 = k_world st /\
      forall fuel, (n <= fuel)%nat -> serve fuel st = close_with cparse max on_error EndRead st1
  | VPanics => exists n st1, cl_out (k_client st1) = cl_out (k_client st) /\ k_world st1 = k_world st /\
      forall fuel, (n <= fuel)%nat -> serve fuel st = (EndPanic, st1)
  | VRefused named e => exists r, r_proto r = or_default named (r_proto (p_req (k_parser st))) /\
      (Detached (on_error (k_world st) r e) -> exists n resp w' r' out st1,
         detached_result (on_error (k_world st) r e) r = Some (resp, w', r') /\
         (forall fuel, (n <= fuel)%nat -> serve fuel st = (EndParse, st1)) /\
         k_world st1 = w' /\ cl_out (k_client st1) = cl_out (k_client st) ++ [out] /\
         SentIn defs past (r_proto r') r' (not_nil resp) [out])
  end.
Proof.
  intros past st t v HB HS HN HL HV.
  pose proof (verdict cfg umax kmax vmax t v HV (k_parser st) (reads_of (k_client st)) (bt_ready _ _ _ _ _ _ _ _ HB)) as O.
  specialize (O ltac:(rewrite reads_concat; exact HS) HN HL). destruct v as [|h rest|named e|]; cbn [Obeys] in O; [| exact I | |].
  - destruct O as (p & O). destruct (serve_pending CS cparse max cfg W on_request on_error _ st p eq_refl O) as (n & c1 & K1 & K2).
    exists (S n), (set_k_parser p (set_k_client c1 st)). split; [exact (proj1 K1)|]. split; [reflexivity|]. intros fuel Hf. replace fuel with (S n + (fuel - S n))%nat by lia. apply K2.
  - destruct O as (p & O & Hp). destruct (feed cfg (k_parser st) (reads_of (k_client st))) as [res rs] eqn:EF. cbn [fst] in O. subst res.
    exists (p_req p). split; [exact Hp|]. intros HD.
    exact (bad_head CS cparse fresh max cfg umax kmax vmax fbs defs defs_distinct W on_request on_error past st p e rs HB HD EF).
  - destruct (feed cfg (k_parser st) (reads_of (k_client st))) as [res rs] eqn:EF. cbn [fst] in O. subst res.
    destruct (serve_panic _ st rs eq_refl EF) as (n & st1 & K1 & K2 & K3). exists (S n), st1. split; [exact (proj1 K1)|]. split; [exact K2|].
    intros fuel Hf. replace fuel with (S n + (fuel - S n))%nat by lia. apply K3.
Qed.
End Tail.

(* ---- after any number of good requests, a server with the built-in router ---- *)
Theorem verdict_after : forall CS cparse encoded fresh inside,
  DecoderOk CS cparse encoded fresh inside -> forall max, (max < two64)%Z ->
  forall cfg umax kmax vmax fbs defs, distinct_names defs ->
  forall W (os : list (list nat * rop W)) x, Running os x -> PlainAliases os -> OrdinaryApp fbs os -> NoErrorHandlers os -> uses os [] = [] ->
  forall reqs past (st : conn CS (world W)) tail v, Routable os reqs ->
  Between umax kmax vmax fbs defs fresh past st ->
  Forall (GoodRequest encoded (cfg_limits cfg umax kmax vmax) max) reqs ->
  NamedHead tail -> (len (start_part tail) <= umax)%Z -> HeadSays (cfg_limits cfg umax kmax vmax) tail v ->
  stream (k_client st) = concat (map wire reqs) ++ tail ->
  exists n outs closed st1, Dialogue defs os reqs (k_world st) past outs (k_world st1) closed /\
    cl_out (k_client st1) = cl_out (k_client st) ++ outs /\
    match closed with
    | Some _ => forall fuel, (n <= fuel)%nat -> serve cparse max cfg (on_request x) (on_error x) fuel st = close_with cparse max (on_error x) EndWrite st1
    | None =>
        match v with
        | VTaken _ _ => True
        | VMore => exists st2, cl_out (k_client st2) = cl_out (k_client st1) /\ k_world st2 = k_world st1 /\
            forall fuel, (n <= fuel)%nat -> serve cparse max cfg (on_request x) (on_error x) fuel st = close_with cparse max (on_error x) EndRead st2
        | VPanics => exists st2, cl_out (k_client st2) = cl_out (k_client st1) /\ k_world st2 = k_world st1 /\
            forall fuel, (n <= fuel)%nat -> serve cparse max cfg (on_request x) (on_error x) fuel st = (EndPanic, st2)
        | VRefused named e => exists out st2 past',
            (forall fuel, (n <= fuel)%nat -> serve cparse max cfg (on_request x) (on_error x) fuel st = (EndParse, st2)) /\
            k_world st2 = k_world st1 /\ cl_out (k_client st2) = cl_out (k_client st1) ++ [out] /\
            let p := or_default named (r_proto (p_req (k_parser st1))) in
            (p <> PUnknown -> out = response_text (version_of p) (itoa_N (he_code e)) (sent_reason (set_code (he_code e) new_response))
                                     (sent_fields defs past' (set_code (he_code e) new_response)) [])
        end
    end.
Proof.
  intros CS cparse encoded fresh inside HD max Hmax cfg umax kmax vmax fbs defs Hdefs W os x HR HA HO HN HU reqs past st tail v HRo HB HG HNd HL HV HS.
  destruct (conversation CS cparse encoded fresh inside HD max Hmax cfg umax kmax vmax fbs defs Hdefs (world W) (on_request x) (on_error x) reqs past st tail
    (ordinary_router W os x HR HA fbs reqs HO HRo) HB HG HS) as (n & outs & closed & st1 & C1 & C2 & C3).
  assert (HDi : Dialogue defs os reqs (k_world st) past outs (k_world st1) closed) by (eapply dialogue; try eassumption; auto).
  destruct closed as [l|].
  { exists n, outs, (Some l), st1. split; [exact HDi|]. split; [exact C2|]. intros fuel Hf. replace fuel with (n + (fuel - n))%nat by lia. apply C3. }
  destruct C3 as ((past' & HB1) & C4 & C5).
  pose proof (tail_verdict CS cparse max cfg (world W) (on_request x) (on_error x) umax kmax vmax fbs defs fresh Hdefs past' st1 tail v HB1 C4 HNd HL HV) as T.
  destruct v as [|h rest|named e|].
  - destruct T as (m & st2 & T1 & T2 & T3). exists (n + m)%nat, outs, None, st1. split; [exact HDi|]. split; [exact C2|]. exists st2. split; [exact T1|]. split; [exact T2|].
    intros fuel Hf. replace fuel with (n + (fuel - n))%nat by lia. rewrite C5. apply T3. lia.
  - exists n, outs, None, st1. split; [exact HDi|]. split; [exact C2|]. exact I.
  - pose proof (verdict cfg umax kmax vmax tail _ HV (k_parser st1) (reads_of (k_client st1)) (bt_ready _ _ _ _ _ _ _ _ HB1)) as O.
    specialize (O ltac:(rewrite reads_concat; exact C4) HNd HL). cbn [Obeys] in O. destruct O as (q & O & Hq).
    destruct (feed cfg (k_parser st1) (reads_of (k_client st1))) as [res rs] eqn:EF. cbn [fst] in O. subst res.
    pose proof (parse_errors _ _ _ _ _ _ EF) as He. clear T.
    pose proof (refusal_answer W os x (k_world st1) (p_req q) e HR HA HN HU He) as HOe.
    assert (HDt : Detached (on_error x (k_world st1) (p_req q) e)).
    { rewrite HOe. apply Dt_update, Dt_update, Dt_ret. intros f E. injection E as <-. reflexivity. }
    destruct (bad_head CS cparse fresh max cfg umax kmax vmax fbs defs Hdefs (world W) (on_request x) (on_error x) past' st1 q e rs HB1 HDt EF)
      as (m & resp & w' & r' & out & st2 & D1 & D2 & D3 & D4 & D5).
    pose proof (sent_known _ _ _ _ _ _ D5) as D5u. clear D5. rename D5u into D5.
    rewrite HOe in D1. unfold detached_result in D1. cbn [aloof_run] in D1. injection D1 as <- <- <-.
    exists (n + m)%nat, outs, None, st1. split; [exact HDi|]. split; [exact C2|]. exists out, st2, past'. split; [|split; [exact D3|split; [exact D4|]]].
    { intros fuel Hf. replace fuel with (n + (fuel - n))%nat by lia. rewrite C5. apply D2. lia. }
    cbv zeta. intros Hp. set (r1 := set_error (EHttp e) (run_mutators (x_mutators x) (p_req q))) in *.
    assert (Ep : r_proto r1 = or_default named (r_proto (p_req (k_parser st1)))).
    { rewrite <- Hq. unfold r1. change (r_proto (run_mutators (x_mutators x) (p_req q)) = r_proto (p_req q)). destruct (aliased W os x (p_req q) HR HA) as [A1 A2].
      destruct (in_dec (list_eq_dec L_Base.byte_eq_dec) (r_path (p_req q)) (map fst (aliases os))) as [Hi|Hi]; [|rewrite (A2 Hi); reflexivity].
      apply in_map_iff in Hi. destruct Hi as ([f t] & E & Hi). cbn [fst] in E. rewrite (A1 f t Hi (eq_sym E)). reflexivity. }
    rewrite Ep in D5. specialize (D5 Hp). cbn [not_nil] in D5.
    inversion D5 as [Ha Eo|a Ha| |]; subst; try discriminate. cbn [f_body set_code new_response]. destruct (method_eqb _ _); reflexivity.
  - destruct T as (m & st2 & T1 & T2 & T3). exists (n + m)%nat, outs, None, st1. split; [exact HDi|]. split; [exact C2|]. exists st2. split; [exact T1|]. split; [exact T2|].
    intros fuel Hf. replace fuel with (n + (fuel - n))%nat by lia. rewrite C5. apply T3. lia.
Qed.

(* ---- the same with error handlers and middlewares of the application ---- *)
Lemma refusal_own : forall W (os : list (list nat * rop W)) x w r e, Running os x -> PlainAliases os ->
  In e [ErrTooLongRequestLine; ErrBadRequest; ErrMethodNotImplemented; ErrURITooLong; ErrURIDecoding; ErrUnsupportedProtocol; ErrHeaderFieldsTooLarge; ErrTooManyHeaders] ->
  exists r1, GivenTo os r e r1 /\ set_error (EHttp e) (run_mutators (x_mutators x) r) = r1 /\
  on_error x w r e = HUpdate (run_mutators (x_mutators x)) (HUpdate (set_error (EHttp e)) (error_choice os (he_code e) w r1)).
Proof.
  intros W os x w r e HR HA He. exists (set_error (EHttp e) (run_mutators (x_mutators x) r)). split; [|split; [reflexivity|]].
  - destruct (aliased W os x r HR HA) as [A1 A2].
    destruct (in_dec (list_eq_dec L_Base.byte_eq_dec) (r_path r) (map fst (aliases os))) as [Hi|Hi]; [|left; rewrite (A2 Hi); split; [reflexivity|exact Hi]].
    right. apply in_map_iff in Hi. destruct Hi as ([f t] & E & Hi). cbn [fst] in E. exists f, t. split; [exact Hi|]. split; [congruence|]. rewrite (A1 f t Hi (eq_sym E)). reflexivity.
  - unfold on_error. f_equal. apply (errors_handled W os x w _ e HR).
    + intros [_ E]. subst e. cbn [In] in He. repeat destruct He as [He|He]; try contradiction; discriminate.
    + intros E. subst e. cbn [In] in He. repeat destruct He as [He|He]; try contradiction; discriminate.
Qed.
Lemma given_proto : forall W (os : list (list nat * rop W)) q e r1, GivenTo os q e r1 -> r_proto r1 = r_proto q.
Proof. intros W os q e r1 [[-> _]|(f & t & _ & _ & ->)]; reflexivity. Qed.

Theorem refused_own : forall CS cparse encoded fresh inside,
  DecoderOk CS cparse encoded fresh inside -> forall max, (max < two64)%Z ->
  forall cfg umax kmax vmax fbs defs, distinct_names defs ->
  forall W (os : list (list nat * rop W)) x, Running os x -> PlainAliases os -> OrdinaryApp fbs os ->
  forall reqs past (st : conn CS (world W)) tail (P : request -> request -> http_error -> Prop), Routable os reqs ->
  Between umax kmax vmax fbs defs fresh past st ->
  Forall (GoodRequest encoded (cfg_limits cfg umax kmax vmax) max) reqs ->
  (forall p reads, Ready umax kmax vmax p -> concat reads = tail -> exists q e, fst (feed cfg p reads) = RErr q e /\ P (p_req p) (p_req q) e) ->
  stream (k_client st) = concat (map wire reqs) ++ tail ->
  exists n outs closed st1, Dialogue defs os reqs (k_world st) past outs (k_world st1) closed /\
    cl_out (k_client st1) = cl_out (k_client st) ++ outs /\
    match closed with
    | Some _ => forall fuel, (n <= fuel)%nat -> serve cparse max cfg (on_request x) (on_error x) fuel st = close_with cparse max (on_error x) EndWrite st1
    | None => exists q e r1, P (p_req (k_parser st1)) q e /\ GivenTo os q e r1 /\
        (Detached (error_choice os (he_code e) (k_world st1) r1) -> exists resp w' r' out st2 past',
           detached_result (error_choice os (he_code e) (k_world st1) r1) r1 = Some (resp, w', r') /\
           (exists m, forall fuel, (m <= fuel)%nat -> serve cparse max cfg (on_request x) (on_error x) fuel st = (EndParse, st2)) /\
           k_world st2 = w' /\ cl_out (k_client st2) = cl_out (k_client st1) ++ [out] /\
           SentIn defs past' (r_proto r') r' (not_nil resp) [out])
    end.
Proof.
  intros CS cparse encoded fresh inside HD max Hmax cfg umax kmax vmax fbs defs Hdefs W os x HR HA HO reqs past st tail P HRo HB HG HP HS.
  destruct (conversation CS cparse encoded fresh inside HD max Hmax cfg umax kmax vmax fbs defs Hdefs (world W) (on_request x) (on_error x) reqs past st tail
    (ordinary_router W os x HR HA fbs reqs HO HRo) HB HG HS) as (n & outs & closed & st1 & C1 & C2 & C3).
  assert (HDi : Dialogue defs os reqs (k_world st) past outs (k_world st1) closed) by (eapply dialogue; try eassumption; auto).
  destruct closed as [l|].
  { exists n, outs, (Some l), st1. split; [exact HDi|]. split; [exact C2|]. intros fuel Hf. replace fuel with (n + (fuel - n))%nat by lia. apply C3. }
  destruct C3 as ((past' & HB1) & C4 & C5).
  destruct (HP (k_parser st1) (reads_of (k_client st1)) (bt_ready _ _ _ _ _ _ _ _ HB1) ltac:(rewrite reads_concat; exact C4)) as (q & e & O & HPq).
  destruct (feed cfg (k_parser st1) (reads_of (k_client st1))) as [res rs] eqn:EF. cbn [fst] in O. subst res.
  pose proof (parse_errors _ _ _ _ _ _ EF) as He.
  destruct (refusal_own W os x (k_world st1) (p_req q) e HR HA He) as (r1 & G1 & G2 & G3).
  exists n, outs, None, st1. split; [exact HDi|]. split; [exact C2|]. exists (p_req q), e, r1. split; [exact HPq|]. split; [exact G1|]. intros HDt.
  assert (HDt' : Detached (on_error x (k_world st1) (p_req q) e)) by (rewrite G3; apply Dt_update, Dt_update; exact HDt).
  destruct (bad_head CS cparse fresh max cfg umax kmax vmax fbs defs Hdefs (world W) (on_request x) (on_error x) past' st1 q e rs HB1 HDt' EF)
    as (m & resp & w' & r' & out & st2 & D1 & D2 & D3 & D4 & D5).
  rewrite G3 in D1. unfold detached_result in D1. cbn [aloof_run] in D1. rewrite G2 in D1.
  exists resp, w', r', out, st2, past'. split; [exact D1|]. split; [|split; [exact D3|split; [exact D4|exact D5]]].
  exists (n + m)%nat. intros fuel Hf. replace fuel with (n + (fuel - n))%nat by lia. rewrite C5. apply D2. lia.
Qed.
