(* Lemmas: applications on connections that receive any bytes, to their end. *)
From Verif Require Import M_Base M_Status M_Method M_Proto M_KeyValue M_Query M_Request M_Parser M_Client M_Body
  M_Response M_Serializer M_Suit M_Path M_Radix M_Router S_KeyValue S_Chunk S_Head S_Parser S_Body S_Response S_Split S_Verdict S_Arrive S_Conn S_Unversioned S_Iso S_Routes S_Router S_Serve S_Upgrade S_Talk S_Missing S_Sync S_Ends S_Broken
  L_Base L_Head L_Router L_Router2 L_Router4 L_Router5 L_Router6 L_Router7 L_Conn L_Conn2 L_Conn3 L_Upgrade L_Verdict L_Serve L_VerdictConn L_Arrive6 L_Arrive7 L_Talk L_Talk2 L_Talk3 L_Talk4 L_Missing L_Missing2 L_Broken L_Broken2.

Lemma gone_keeps : forall net0, KeptByReads (fun net => forall hung, Gone hung net0 -> Gone hung net).
Proof.
  intros net0 d net H hung Hg. specialize (H hung Hg). inversion H as [d0 n0 G|d0 n0|n0 Hh Hf]; subst; [exact G|]. inversion Hf as [|? ? E F]; subst. discriminate E.
Qed.
Theorem app_talk : forall CS cparse encoded fresh inside,
  DecoderOk CS cparse encoded fresh inside -> forall begun, DecoderHonest encoded CS cparse fresh begun -> forall max, (0 <= max < two64)%Z -> Decided encoded max ->
  forall cfg umax kmax vmax fbs defs, (0 <= umax)%Z -> distinct_names defs ->
  forall W (os : list (list nat * rop W)) x, Running os x -> PlainAliases os -> OrdinaryApp fbs os ->
  (HasParams os -> forall f t, In (f, t) (aliases os) -> t <> []) ->
  forall past ups (st : conn CS (world W)), Amid umax kmax vmax fbs defs fresh past ups st ->
  exists n outs left st1,
    Talk encoded max (cfg_limits cfg umax kmax vmax) defs (Routed os) (reads_of (k_client st)) (k_world st) past ups outs (k_world st1) left /\
    cl_out (k_client st1) = cl_out (k_client st) ++ outs /\
    match left with
    | None => forall fuel, (n <= fuel)%nat -> serve cparse max cfg (on_request x) (on_error x) fuel st = close_with cparse max (on_error x) EndWrite st1
    | Some (reads, past1, ups1) => reads = reads_of (k_client st1) /\ Stops encoded max (cfg_limits cfg umax kmax vmax) reads /\
        forall v, HeadHeard (cfg_limits cfg umax kmax vmax) reads v ->
        match v with
        | VTaken h rest =>
            (exists r, Heard (cfg_limits cfg umax kmax vmax) h r /\ forall long hung, Gone hung (cl_net (k_client st)) -> Lacks max long r rest ->
            exists o r', MissRouted os long hung (k_world st1) r rest o r' /\
            match o with
            | Panics => huge r = true /\ exists m st2, cl_out (k_client st2) = cl_out (k_client st1) /\ k_world st2 = k_world st1 /\
                forall fuel, (m <= fuel)%nat -> serve cparse max cfg (on_request x) (on_error x) fuel st = (EndPanic, st2)
            | Returns resp w1 => exists m out past' ups' st2 e, k_world st2 = w1 /\
                Replies defs past1 ups1 (read_as h) r' (not_nil resp) out past' ups' /\ cl_out (k_client st2) = cl_out (k_client st1) ++ out /\
                In e [EndWrite; EndClear; EndRead] /\ (e = EndWrite <-> ~ goes_on (read_as h) r' (not_nil resp)) /\
                forall fuel, (m <= fuel)%nat -> serve cparse max cfg (on_request x) (on_error x) fuel st = close_with cparse max (on_error x) e st2
            end) /\
            (exists r, Heard (cfg_limits cfg umax kmax vmax) h r /\ forall hung, Gone hung (cl_net (k_client st)) -> Breaks encoded max r rest ->
            exists m resp r' out past' ups' st2 told, BreakRouted encoded max hung os (k_world st1) r rest resp (k_world st2) r' told /\
              Replies defs past1 ups1 (read_as h) r' (not_nil resp) out past' ups' /\ cl_out (k_client st2) = cl_out (k_client st1) ++ out /\
              ((exists e, In e [EndWrite; EndClear; EndRead] /\ (e = EndWrite <-> ~ goes_on (read_as h) r' (not_nil resp)) /\
                 forall fuel, (m <= fuel)%nat -> serve cparse max cfg (on_request x) (on_error x) fuel st = close_with cparse max (on_error x) e st2) \/
               (told = true /\ goes_on (read_as h) r' (not_nil resp) /\
                 forall fuel, serve cparse max cfg (on_request x) (on_error x) (m + fuel)%nat st = serve cparse max cfg (on_request x) (on_error x) fuel st2)))
        | VMore => exists m st2, cl_out (k_client st2) = cl_out (k_client st1) /\ k_world st2 = k_world st1 /\
            forall fuel, (m <= fuel)%nat -> serve cparse max cfg (on_request x) (on_error x) fuel st = close_with cparse max (on_error x) EndRead st2
        | VPanics => exists m st2, cl_out (k_client st2) = cl_out (k_client st1) /\ k_world st2 = k_world st1 /\
            forall fuel, (m <= fuel)%nat -> serve cparse max cfg (on_request x) (on_error x) fuel st = (EndPanic, st2)
        | VRefused named e => exists q r1, r_proto r1 = or_default named (r_proto (p_req (k_parser st1))) /\ GivenTo os q e r1 /\
            (Detached (error_choice os (he_code e) (k_world st1) r1) -> exists resp w' r' out m st2,
               detached_result (error_choice os (he_code e) (k_world st1) r1) r1 = Some (resp, w', r') /\
               (forall fuel, (m <= fuel)%nat -> serve cparse max cfg (on_request x) (on_error x) fuel st = (EndParse, st2)) /\
               k_world st2 = w' /\ cl_out (k_client st2) = cl_out (k_client st1) ++ [out] /\
               SentIn defs past1 (r_proto r') r' (not_nil resp) [out])
        end
    end.
Proof.
  intros CS cparse encoded fresh inside HD begun HH max [Hmin Hmax] Dc cfg umax kmax vmax fbs defs HU Hdefs W os x HR HA HO Rt past ups st Ha.
  destruct (talk CS cparse encoded fresh inside HD max Hmax cfg umax kmax vmax fbs HU defs Hdefs (world W) (on_request x) (on_error x)
    _ (gone_keeps (cl_net (k_client st))) reachable Dc
    reachable_decided (fun h r => heard_ordinary W os x HR HA Rt fbs _ h r HO) past ups st Ha (fun _ G => G)) as (n & outs & left & st1 & T & O & K).
  exists n, outs, left, st1. split; [eapply talk_answers; [|exact T]; intros h r w text resp w1 r' Hr [Hp Hh]; eapply heard_routed; eassumption|]. split; [exact O|].
  destruct left as [[[reads past1] ups1]|].
  2:{ intros fuel Hf. replace fuel with (n + (fuel - n))%nat by lia. apply K. }
  destruct K as (Er & St & Ha1 & Gn & Sv). split; [exact Er|]. split; [intros h rest HV; exact (St h rest HV (heard_nonempty _ _ _ _ HV))|]. intros v HV. rewrite Er in HV.
  pose proof (fate CS cparse fresh max cfg umax kmax vmax fbs HU defs Hdefs (world W) (on_request x) (on_error x) past1 ups1 st1 Ha1 v HV) as F.
  destruct v as [|h rest|named e|].
  - destruct F as (m & st2 & F1 & F2 & F3). exists (n + m)%nat, st2. split; [exact F1|]. split; [exact F2|]. intros fuel Hf.
    replace fuel with (n + (fuel - n))%nat by lia. rewrite Sv. apply F3. lia.
  - split.
    { destruct (app_missing CS cparse fresh max Hmin cfg umax kmax vmax fbs defs HU Hdefs W os x HR HA HO Rt past1 ups1 st1 Ha1 h rest HV) as (r & Hr & HM).
    exists r. split; [exact Hr|]. intros long hung Hg HL. destruct (HM long hung (Gn hung Hg) HL) as (o & r' & M0 & M). exists o, r'. split; [exact M0|]. destruct o as [resp w1|].
    2:{ destruct M as (M1 & m & st2 & M2 & M3 & M4). split; [exact M1|]. exists (n + m)%nat, st2. split; [exact M2|]. split; [exact M3|].
        intros fuel Hf. replace fuel with (n + (fuel - n))%nat by lia. rewrite Sv. apply M4. lia. }
    destruct M as (m & out & past' & ups' & st2 & e & M1 & M2 & M3 & M4 & M5 & M6).
    exists (n + m)%nat, out, past', ups', st2, e. split; [exact M1|]. split; [exact M2|]. split; [exact M3|]. split; [exact M4|]. split; [exact M5|].
    intros fuel Hf. replace fuel with (n + (fuel - n))%nat by lia. rewrite Sv. apply M6. lia. }
    destruct (app_broken CS cparse encoded fresh begun HH max (conj Hmin Hmax) cfg umax kmax vmax fbs defs HU Hdefs W os x HR HA HO Rt past1 ups1 st1 Ha1 h rest HV) as (r & Hr & HM).
    exists r. split; [exact Hr|]. intros hung Hg HL. destruct (HM hung (Gn hung Hg) HL) as (m & resp & r' & out & past' & ups' & st2 & told & M1 & M2 & M3 & M4).
    exists (n + m)%nat, resp, r', out, past', ups', st2, told. split; [exact M1|]. split; [exact M2|]. split; [exact M3|]. destruct M4 as [(e & E1 & E2 & E3)|(E1 & E2 & E3)]; [left|right].
    + exists e. split; [exact E1|]. split; [exact E2|]. intros fuel Hf. replace fuel with (n + (fuel - n))%nat by lia. rewrite Sv. apply E3. lia.
    + split; [exact E1|]. split; [exact E2|]. intros fuel. rewrite <- Nat.add_assoc, Sv. apply E3.
  - destruct F as (q & F1 & F2 & F3). destruct (refusal_own W os x (k_world st1) q e HR HA F2) as (r1 & G1 & G2 & G3).
    exists q, r1. split; [rewrite (given_proto _ _ _ _ _ G1); exact F1|]. split; [exact G1|]. intros HDt.
    assert (HDt' : Detached (on_error x (k_world st1) q e)) by (rewrite G3; apply Dt_update, Dt_update; exact HDt).
    destruct (F3 HDt') as (resp & w' & r' & out & m & st2 & D1 & D2 & D3 & D4 & D5).
    rewrite G3 in D1. unfold detached_result in D1. cbn [aloof_run] in D1. rewrite G2 in D1.
    exists resp, w', r', out, (n + m)%nat, st2. split; [exact D1|]. split; [|split; [exact D3|split; [exact D4|exact D5]]].
    intros fuel Hf. replace fuel with (n + (fuel - n))%nat by lia. rewrite Sv. apply D2. lia.
  - destruct F as (m & st2 & F1 & F2 & F3). exists (n + m)%nat, st2. split; [exact F1|]. split; [exact F2|]. intros fuel Hf.
    replace fuel with (n + (fuel - n))%nat by lia. rewrite Sv. apply F3. lia.
Qed.
