(* Lemmas: applications with any mutators on connections that receive any bytes. *)
From Verif Require Import M_Base M_Status M_Method M_Proto M_KeyValue M_Query M_Request M_Parser M_Client M_Body
  M_Response M_Serializer M_Suit M_Path M_Radix M_Router S_KeyValue S_Chunk S_Head S_Parser S_Body S_Response S_Split S_Verdict S_Arrive S_Conn S_Unversioned S_Iso S_Routes S_Router S_Serve S_Upgrade S_Talk S_Missing S_Sync S_Ends S_Broken S_Mutators S_Mutated S_MutTalk
  L_Base L_Head L_Path L_Router L_Router2 L_Router4 L_Router5 L_Router6 L_Router7 L_Conn L_Conn2 L_Conn3 L_Upgrade L_Verdict L_Serve L_Serve2 L_VerdictConn L_Arrive6 L_Arrive7 L_Talk L_Talk2 L_Talk3 L_Talk4 L_Missing L_Missing2 L_Broken L_Broken2 L_Talk5 L_Mutators L_Mutated.

Section App.
Variable W : Type.
Variable os : list (list nat * rop W).
Variable x : runtime W.
Hypothesis running : Running os x.
Hypothesis harmless_mus : HarmlessMutators os.
Variable mus : list (request -> request).
Hypothesis in_order : InOrder os [] mus.
Hypothesis routable : AlwaysRoutable os mus.
Lemma mut_sorted : forall lim h r, reachable (h_decoded h) -> Heard lim h r -> Sorted_out W (settled os) (without x) (one_by_one mus r).
Proof.
  intros lim h r Hp Hr. pose proof (heard_path _ _ _ Hr) as Er. apply sorted; [apply running_settled; exact running|apply settled_plain|]. intros HP. pose proof (routable HP) as P2.
  assert (Hne : r_path (one_by_one mus r) <> []) by (apply P2; rewrite Er; exact Hp).
  intros r0 Ha. destruct Ha as [t Ht|_]; [exfalso; rewrite (proj2 (settled_plain W os)) in Ht; destruct Ht|]. cbn [set_path r_path].
  destruct (r_path (one_by_one mus r)) as [|c s]; [congruence|]. destruct (normalize_head c s) as (u & E). rewrite E. discriminate.
Qed.
(* what a request becomes *)
Lemma mut_dispatched : forall lim h r, reachable (h_decoded h) -> Heard lim h r -> exists g r1, Dispatch (settled os) (one_by_one mus r) g r1 /\
  forall w, (on_request x w r = HUpdate (fun r0 => fst (route x r0)) (g w r1) /\ fst (route x r) = r1) \/
    exists e r2, on_request x w r = HUpdate (fun r0 => fst (route x r0)) (HUpdate (set_error e) (g w r1)) /\ fst (route x r) = r2 /\ r1 = set_error e r2.
Proof.
  intros lim h r Hp Hr. destruct (dispatched W (settled os) (without x) (one_by_one mus r) (running_settled W os x running) (proj1 (settled_plain W os)) (mut_sorted lim h r Hp Hr)) as (g & r1 & HD & HW).
  exists g, r1. split; [exact HD|]. intros w. destruct (same_request W os x running mus in_order w r) as (k & E1 & E2).
  assert (Ef : fst (route x r) = fst (route (without x) (one_by_one mus r))) by (rewrite (mutated_first W x r), (same_mus W os x running mus in_order); reflexivity).
  rewrite E1, Ef. destruct (HW w) as [[E F]|(e & r2 & E & F)]; rewrite E in E2; injection E2 as <-; [left; auto|right]. exists e, r2. auto.
Qed.
Lemma mut_ordinary : forall fbs lim h r, OrdinaryApp fbs (settled os) -> reachable (h_decoded h) -> Heard lim h r -> forall w, Ordinary fbs (on_request x w r).
Proof.
  intros fbs lim h r HO Hp Hr w. destruct (mut_dispatched lim h r Hp Hr) as (g & r1 & HD & HW).
  pose proof (dispatch_ordinary W (settled os) fbs _ g r1 HO HD) as Hh. pose proof (route_harmless W os x running harmless_mus) as Hk. destruct (HW w) as [[-> _]|(e & r2 & -> & _)].
  - apply Ta_update; [exact Hk|apply Hh].
  - apply Ta_update; [exact Hk|]. apply Ta_update; [apply set_error_harmless|apply Hh].
Qed.
Lemma mut_routed : forall lim h r w text resp w1 r', reachable (r_path r) -> Heard lim h r ->
  Handled (on_request x) w r text resp w1 r' -> MutRouted os mus w r text resp w1 r'.
Proof.
  intros lim h r w text resp w1 r' Hp Hr (v' & HS). destruct (mut_dispatched lim h r (eq_ind _ reachable Hp _ (heard_path _ _ _ Hr)) Hr) as (g & r1 & HD & HW).
  exists g, r1. split; [exact HD|]. exists v'. destruct (HW w) as [[E Ef]|(e & r2 & E & Ef & E1)]; rewrite E in HS.
  - inversion HS; subst. assumption.
  - inversion HS as [| | |g0 k ? ? ? ? ? HS2| | | |]; subst. cbn beta in HS2. inversion HS2; subst. assumption.
Qed.
Lemma mut_miss_routed : forall lim h r long hung w rest o r', h_decoded h <> [] -> Heard lim h r ->
  MissHandled (on_request x) long hung w r rest o r' -> MutMissRouted os mus long hung w r rest o r'.
Proof.
  intros lim h r long hung w rest o r' Hp Hr (v' & HS). destruct (mut_dispatched lim h r Hp Hr) as (g & r1 & HD & HW).
  exists g, r1, v'. split; [exact HD|]. destruct (HW w) as [[E Ef]|(e & r2 & E & Ef & E1)]; rewrite E in HS.
  - inversion HS; subst. assumption.
  - inversion HS as [| | | |g0 k ? ? ? ? ? HS2| | | |]; subst. cbn beta in HS2. inversion HS2; subst. assumption.
Qed.
Lemma mut_break_routed : forall encoded max lim h r hung w rest resp w1 r' told, h_decoded h <> [] -> Heard lim h r ->
  BreakHandled encoded max (enc_trailer (r_encoding r)) hung (on_request x w r) r rest resp w1 r' told -> MutBreakRouted os mus encoded max hung w r rest resp w1 r' told.
Proof.
  intros encoded max lim h r hung w rest resp w1 r' told Hp Hr (v' & HS & Ht). destruct (mut_dispatched lim h r Hp Hr) as (g & r1 & HD & HW).
  exists g, r1. split; [exact HD|]. exists v'. split; [|exact Ht]. destruct (HW w) as [[E Ef]|(e & r2 & E & Ef & E1)]; rewrite E in HS.
  - inversion HS; subst. assumption.
  - inversion HS as [| | | |g0 k ? ? ? ? ? HS2| | | |]; subst. cbn beta in HS2. inversion HS2; subst. assumption.
Qed.
Lemma mut_refusal : forall w r e,
  In e [ErrTooLongRequestLine; ErrBadRequest; ErrMethodNotImplemented; ErrURITooLong; ErrURIDecoding; ErrUnsupportedProtocol; ErrHeaderFieldsTooLarge; ErrTooManyHeaders] ->
  set_error (EHttp e) (run_mutators (x_mutators x) r) = set_error (EHttp e) (one_by_one mus r) /\
  on_error x w r e = HUpdate (run_mutators (x_mutators x)) (HUpdate (set_error (EHttp e)) (error_choice os (he_code e) w (set_error (EHttp e) (one_by_one mus r)))).
Proof.
  intros w r e He. assert (E : run_mutators (x_mutators x) r = one_by_one mus r) by (rewrite <- (same_mus W os x running mus in_order); reflexivity).
  split; [rewrite E; reflexivity|]. unfold on_error. rewrite E. f_equal. apply (errors_handled W os x w _ e running).
  - intros [_ E']. subst e. cbn [In] in He. repeat destruct He as [He|He]; try contradiction; discriminate.
  - intros E'. subst e. cbn [In] in He. repeat destruct He as [He|He]; try contradiction; discriminate.
Qed.
End App.
Theorem mut_missing : forall CS cparse (fresh : CS -> Prop) max, (0 <= max)%Z ->
  forall cfg umax kmax vmax fbs defs, (0 <= umax)%Z -> distinct_names defs ->
  forall W (os : list (list nat * rop W)) x mus, Running os x -> InOrder os [] mus -> HarmlessMutators os -> OrdinaryApp fbs (settled os) -> AlwaysRoutable os mus ->
  forall past ups (st : conn CS (world W)), Amid umax kmax vmax fbs defs fresh past ups st ->
  forall h rest, HeadHeard (cfg_limits cfg umax kmax vmax) (reads_of (k_client st)) (VTaken h rest) ->
  exists r, Heard (cfg_limits cfg umax kmax vmax) h r /\ forall long hung, Gone hung (cl_net (k_client st)) -> Lacks max long r rest ->
  exists o r', MutMissRouted os mus long hung (k_world st) r rest o r' /\
  match o with
  | Panics => huge r = true /\ exists n st1, cl_out (k_client st1) = cl_out (k_client st) /\ k_world st1 = k_world st /\
      forall fuel, (n <= fuel)%nat -> serve cparse max cfg (on_request x) (on_error x) fuel st = (EndPanic, st1)
  | Returns resp w1 => exists n out past' ups' st1 e, k_world st1 = w1 /\
    Replies defs past ups (read_as h) r' (not_nil resp) out past' ups' /\ cl_out (k_client st1) = cl_out (k_client st) ++ out /\
    In e [EndWrite; EndClear; EndRead] /\ (e = EndWrite <-> ~ goes_on (read_as h) r' (not_nil resp)) /\
    forall fuel, (n <= fuel)%nat -> serve cparse max cfg (on_request x) (on_error x) fuel st = close_with cparse max (on_error x) e st1
  end.
Proof.
  intros CS cparse fresh max Hm cfg umax kmax vmax fbs defs HU Hdefs W os x mus HR HI Hms HO Rt past ups st Ha h rest HV. pose proof (heard_nonempty _ _ _ _ HV) as Hp.
  destruct (missing_turn CS cparse fresh max Hm cfg umax kmax vmax fbs HU defs Hdefs (world W) (on_request x) (on_error x) past ups st h rest
    (fun w r Hr => mut_ordinary W os x HR Hms mus HI Rt fbs _ h r HO Hp Hr w) Ha HV) as (r & Hr & HT).
  exists r. split; [exact Hr|]. intros long hung Hg HL. destruct (HT long hung Hg HL) as (o & r' & K1 & K).
  exists o, r'. split; [|exact K]. eapply mut_miss_routed; eassumption.
Qed.
Theorem mut_broken : forall CS cparse encoded (fresh : CS -> Prop) begun, DecoderHonest encoded CS cparse fresh begun -> forall max, (0 <= max < two64)%Z ->
  forall cfg umax kmax vmax fbs defs, (0 <= umax)%Z -> distinct_names defs ->
  forall W (os : list (list nat * rop W)) x mus, Running os x -> InOrder os [] mus -> HarmlessMutators os -> OrdinaryApp fbs (settled os) -> AlwaysRoutable os mus ->
  forall past ups (st : conn CS (world W)), Amid umax kmax vmax fbs defs fresh past ups st ->
  forall h rest, HeadHeard (cfg_limits cfg umax kmax vmax) (reads_of (k_client st)) (VTaken h rest) ->
  exists r, Heard (cfg_limits cfg umax kmax vmax) h r /\ forall hung, Gone hung (cl_net (k_client st)) -> Breaks encoded max r rest ->
  exists n resp r' out past' ups' st1 told, MutBreakRouted os mus encoded max hung (k_world st) r rest resp (k_world st1) r' told /\
    Replies defs past ups (read_as h) r' (not_nil resp) out past' ups' /\ cl_out (k_client st1) = cl_out (k_client st) ++ out /\
    ((exists e, In e [EndWrite; EndClear; EndRead] /\ (e = EndWrite <-> ~ goes_on (read_as h) r' (not_nil resp)) /\
       forall fuel, (n <= fuel)%nat -> serve cparse max cfg (on_request x) (on_error x) fuel st = close_with cparse max (on_error x) e st1) \/
     (told = true /\ goes_on (read_as h) r' (not_nil resp) /\ forall fuel, serve cparse max cfg (on_request x) (on_error x) (n + fuel)%nat st = serve cparse max cfg (on_request x) (on_error x) fuel st1)).
Proof.
  intros CS cparse encoded fresh begun HH max Hm cfg umax kmax vmax fbs defs HU Hdefs W os x mus HR HI Hms HO Rt past ups st Ha h rest HV. pose proof (heard_nonempty _ _ _ _ HV) as Hp.
  destruct (broken_turn CS cparse encoded fresh begun HH max Hm cfg umax kmax vmax fbs HU defs Hdefs (world W) (on_request x) (on_error x) past ups st h rest
    (fun w r Hr => mut_ordinary W os x HR Hms mus HI Rt fbs _ h r HO Hp Hr w) Ha HV) as (r & Hr & HT).
  exists r. split; [exact Hr|]. intros hung Hg HL. destruct (HT hung Hg HL) as (n & resp & r' & out & past' & ups' & st1 & told & K1 & K).
  exists n, resp, r', out, past', ups', st1, told. split; [|exact K]. eapply mut_break_routed; eassumption.
Qed.
Theorem mutated_talk : forall CS cparse encoded fresh inside,
  DecoderOk CS cparse encoded fresh inside -> forall begun, DecoderHonest encoded CS cparse fresh begun -> forall max, (0 <= max < two64)%Z -> Decided encoded max ->
  forall cfg umax kmax vmax fbs defs, (0 <= umax)%Z -> distinct_names defs ->
  forall W (os : list (list nat * rop W)) x mus, Running os x -> InOrder os [] mus -> HarmlessMutators os -> OrdinaryApp fbs (settled os) -> AlwaysRoutable os mus ->
  forall past ups (st : conn CS (world W)), Amid umax kmax vmax fbs defs fresh past ups st ->
  exists n outs left st1,
    Talk encoded max (cfg_limits cfg umax kmax vmax) defs (MutRouted os mus) (reads_of (k_client st)) (k_world st) past ups outs (k_world st1) left /\
    cl_out (k_client st1) = cl_out (k_client st) ++ outs /\
    match left with
    | None => forall fuel, (n <= fuel)%nat -> serve cparse max cfg (on_request x) (on_error x) fuel st = close_with cparse max (on_error x) EndWrite st1
    | Some (reads, past1, ups1) => reads = reads_of (k_client st1) /\ Stops encoded max (cfg_limits cfg umax kmax vmax) reads /\
        forall v, HeadHeard (cfg_limits cfg umax kmax vmax) reads v ->
        match v with
        | VTaken h rest =>
            (exists r, Heard (cfg_limits cfg umax kmax vmax) h r /\ forall long hung, Gone hung (cl_net (k_client st)) -> Lacks max long r rest ->
            exists o r', MutMissRouted os mus long hung (k_world st1) r rest o r' /\
            match o with
            | Panics => huge r = true /\ exists m st2, cl_out (k_client st2) = cl_out (k_client st1) /\ k_world st2 = k_world st1 /\
                forall fuel, (m <= fuel)%nat -> serve cparse max cfg (on_request x) (on_error x) fuel st = (EndPanic, st2)
            | Returns resp w1 => exists m out past' ups' st2 e, k_world st2 = w1 /\
                Replies defs past1 ups1 (read_as h) r' (not_nil resp) out past' ups' /\ cl_out (k_client st2) = cl_out (k_client st1) ++ out /\
                In e [EndWrite; EndClear; EndRead] /\ (e = EndWrite <-> ~ goes_on (read_as h) r' (not_nil resp)) /\
                forall fuel, (m <= fuel)%nat -> serve cparse max cfg (on_request x) (on_error x) fuel st = close_with cparse max (on_error x) e st2
            end) /\
            (exists r, Heard (cfg_limits cfg umax kmax vmax) h r /\ forall hung, Gone hung (cl_net (k_client st)) -> Breaks encoded max r rest ->
            exists m resp r' out past' ups' st2 told, MutBreakRouted os mus encoded max hung (k_world st1) r rest resp (k_world st2) r' told /\
              Replies defs past1 ups1 (read_as h) r' (not_nil resp) out past' ups' /\ cl_out (k_client st2) = cl_out (k_client st1) ++ out /\
              ((exists e, In e [EndWrite; EndClear; EndRead] /\ (e = EndWrite <-> ~ goes_on (read_as h) r' (not_nil resp)) /\
                 forall fuel, (m <= fuel)%nat -> serve cparse max cfg (on_request x) (on_error x) fuel st = close_with cparse max (on_error x) e st2) \/
               (told = true /\ goes_on (read_as h) r' (not_nil resp) /\
                 forall fuel, serve cparse max cfg (on_request x) (on_error x) (m + fuel)%nat st = serve cparse max cfg (on_request x) (on_error x) fuel st2)))
        | VMore => exists m st2, cl_out (k_client st2) = cl_out (k_client st1) /\ k_world st2 = k_world st1 /\
            forall fuel, (m <= fuel)%nat -> serve cparse max cfg (on_request x) (on_error x) fuel st = close_with cparse max (on_error x) EndRead st2
        | VPanics => exists m st2, cl_out (k_client st2) = cl_out (k_client st1) /\ k_world st2 = k_world st1 /\
            forall fuel, (m <= fuel)%nat -> serve cparse max cfg (on_request x) (on_error x) fuel st = (EndPanic, st2)
        | VRefused named e => exists q r1, r_proto q = or_default named (r_proto (p_req (k_parser st1))) /\ r1 = set_error (EHttp e) (one_by_one mus q) /\
            (Detached (error_choice os (he_code e) (k_world st1) r1) -> exists resp w' r' out m st2,
               detached_result (error_choice os (he_code e) (k_world st1) r1) r1 = Some (resp, w', r') /\
               (forall fuel, (m <= fuel)%nat -> serve cparse max cfg (on_request x) (on_error x) fuel st = (EndParse, st2)) /\
               k_world st2 = w' /\ cl_out (k_client st2) = cl_out (k_client st1) ++ [out] /\
               SentIn defs past1 (r_proto r') r' (not_nil resp) [out])
        end
    end.
Proof.
  intros CS cparse encoded fresh inside HD begun HH max [Hmin Hmax] Dc cfg umax kmax vmax fbs defs HU Hdefs W os x mus HR HI Hms HO Rt past ups st Ha.
  destruct (talk CS cparse encoded fresh inside HD max Hmax cfg umax kmax vmax fbs HU defs Hdefs (world W) (on_request x) (on_error x)
    _ (gone_keeps (cl_net (k_client st))) reachable Dc
    reachable_decided (fun h r => mut_ordinary W os x HR Hms mus HI Rt fbs _ h r HO) past ups st Ha (fun _ G => G)) as (n & outs & left & st1 & T & O & K).
  exists n, outs, left, st1. split; [eapply talk_answers; [|exact T]; intros h r w text resp w1 r' Hr [Hp Hh]; eapply mut_routed; eassumption|]. split; [exact O|].
  destruct left as [[[reads past1] ups1]|].
  2:{ intros fuel Hf. replace fuel with (n + (fuel - n))%nat by lia. apply K. }
  destruct K as (Er & St & Ha1 & Gn & Sv). split; [exact Er|]. split; [intros h rest HV; exact (St h rest HV (heard_nonempty _ _ _ _ HV))|]. intros v HV. rewrite Er in HV.
  pose proof (fate CS cparse fresh max cfg umax kmax vmax fbs HU defs Hdefs (world W) (on_request x) (on_error x) past1 ups1 st1 Ha1 v HV) as F.
  destruct v as [|h rest|named e|].
  - destruct F as (m & st2 & F1 & F2 & F3). exists (n + m)%nat, st2. split; [exact F1|]. split; [exact F2|]. intros fuel Hf.
    replace fuel with (n + (fuel - n))%nat by lia. rewrite Sv. apply F3. lia.
  - split.
    { destruct (mut_missing CS cparse fresh max Hmin cfg umax kmax vmax fbs defs HU Hdefs W os x mus HR HI Hms HO Rt past1 ups1 st1 Ha1 h rest HV) as (r & Hr & HM).
    exists r. split; [exact Hr|]. intros long hung Hg HL. destruct (HM long hung (Gn hung Hg) HL) as (o & r' & M0 & M). exists o, r'. split; [exact M0|]. destruct o as [resp w1|].
    2:{ destruct M as (M1 & m & st2 & M2 & M3 & M4). split; [exact M1|]. exists (n + m)%nat, st2. split; [exact M2|]. split; [exact M3|].
        intros fuel Hf. replace fuel with (n + (fuel - n))%nat by lia. rewrite Sv. apply M4. lia. }
    destruct M as (m & out & past' & ups' & st2 & e & M1 & M2 & M3 & M4 & M5 & M6).
    exists (n + m)%nat, out, past', ups', st2, e. split; [exact M1|]. split; [exact M2|]. split; [exact M3|]. split; [exact M4|]. split; [exact M5|].
    intros fuel Hf. replace fuel with (n + (fuel - n))%nat by lia. rewrite Sv. apply M6. lia. }
    destruct (mut_broken CS cparse encoded fresh begun HH max (conj Hmin Hmax) cfg umax kmax vmax fbs defs HU Hdefs W os x mus HR HI Hms HO Rt past1 ups1 st1 Ha1 h rest HV) as (r & Hr & HM).
    exists r. split; [exact Hr|]. intros hung Hg HL. destruct (HM hung (Gn hung Hg) HL) as (m & resp & r' & out & past' & ups' & st2 & told & M1 & M2 & M3 & M4).
    exists (n + m)%nat, resp, r', out, past', ups', st2, told. split; [exact M1|]. split; [exact M2|]. split; [exact M3|]. destruct M4 as [(e & E1 & E2 & E3)|(E1 & E2 & E3)]; [left|right].
    + exists e. split; [exact E1|]. split; [exact E2|]. intros fuel Hf. replace fuel with (n + (fuel - n))%nat by lia. rewrite Sv. apply E3. lia.
    + split; [exact E1|]. split; [exact E2|]. intros fuel. rewrite <- Nat.add_assoc, Sv. apply E3.
  - destruct F as (q & F1 & F2 & F3). destruct (mut_refusal W os x HR mus HI (k_world st1) q e F2) as (G2 & G3). set (r1 := set_error (EHttp e) (one_by_one mus q)) in *.
    exists q, r1. split; [exact F1|]. split; [reflexivity|]. intros HDt.
    assert (HDt' : Detached (on_error x (k_world st1) q e)) by (rewrite G3; apply Dt_update, Dt_update; exact HDt).
    destruct (F3 HDt') as (resp & w' & r' & out & m & st2 & D1 & D2 & D3 & D4 & D5).
    rewrite G3 in D1. unfold detached_result in D1. cbn [aloof_run] in D1. rewrite G2 in D1.
    exists resp, w', r', out, (n + m)%nat, st2. split; [exact D1|]. split; [|split; [exact D3|split; [exact D4|exact D5]]].
    intros fuel Hf. replace fuel with (n + (fuel - n))%nat by lia. rewrite Sv. apply D2. lia.
  - destruct F as (m & st2 & F1 & F2 & F3). exists (n + m)%nat, st2. split; [exact F1|]. split; [exact F2|]. intros fuel Hf.
    replace fuel with (n + (fuel - n))%nat by lia. rewrite Sv. apply F3. lia.
Qed.
