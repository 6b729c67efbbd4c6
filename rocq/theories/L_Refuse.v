(* Which error a malformed request line gets, however it arrives. *)
From Verif Require Import M_Base L_Base M_Status M_Method M_Proto M_Uri M_KeyValue M_Query M_Request
  M_Parser S_Parser S_Head S_Split L_Head L_Uri L_Loose L_Tables L_Safe L_Split.
Local Arguments cut : simpl never.
Local Arguments cut_last : simpl never.
Local Open Scope Z_scope.

Lemma method_known : forall m, In m method_names -> method_parse m <> MUnknown.
Proof. intros m H. unfold method_names in H. cbn [In] in H. repeat (destruct H as [<-|H]; [vm_compute; discriminate|]). contradiction. Qed.
Lemma method_unknown : forall m, ~ In m method_names -> method_parse m = MUnknown.
Proof.
  intros m H. destruct (method_parse m) eqn:E; [reflexivity|exfalso; apply H; assert (X := method_parse_only m _ E); specialize (X ltac:(discriminate)); subst m; unfold method_names; vm_compute; tauto ..].
Qed.
Lemma bare_snoc : forall v c, bare (v ++ [c]) = if Byte.eqb c CR then v else v ++ [c].
Proof.
  intros v c. unfold bare. rewrite rev_app_distr. cbn [rev app].
  destruct (Byte.eqb c CR) eqn:E; [apply beq_eq in E; subst c; apply rev_involutive|]. destruct c; try reflexivity. discriminate E.
Qed.
Lemma bare_model : forall v c, last_byte v = Some c -> (if Byte.eqb c CR then drop_last v else v) = bare v.
Proof. intros v c H. apply last_byte_some in H. rewrite H, bare_snoc, drop_last_snoc. reflexivity. Qed.
Lemma byte_sub_30 : forall a x, bN (bsub a x30) = x -> (x < 10)%N -> a = byte_of_N (48 + x).
Proof. intros a x <- H. destruct a; vm_compute in H; try discriminate H; reflexivity. Qed.
Lemma version_unknown : forall v, ~ version_token v -> proto_from_bytes v = PUnknown.
Proof.
  intros v H. unfold proto_from_bytes. destruct v as [|h [|t1 [|t2 [|p [|sl [|ma [|c [|mi [|x v]]]]]]]]]; try reflexivity.
  destruct (beqb [h; t1; t2; p; sl] (B "HTTP/")) eqn:E; [|reflexivity]. apply beqb_eq in E. unfold proto_parse.
  destruct ((9 <? bN (bsub ma x30))%N || (9 <? bN (bsub mi x30))%N) eqn:E9; [reflexivity|].
  change (B "HTTP/") with [x48; x54; x54; x50; x2f] in E. injection E as -> -> -> -> ->.
  assert (A : forall k, bN (bsub ma x30) = k -> (k < 10)%N -> ma = byte_of_N (48 + k)) by (intros k; apply byte_sub_30).
  assert (C : forall k, bN (bsub mi x30) = k -> (k < 10)%N -> mi = byte_of_N (48 + k)) by (intros k; apply byte_sub_30).
  destruct (bN (bsub ma x30)) as [|[q|q|]] eqn:Ea; try reflexivity.
  - destruct q; [reflexivity|reflexivity|]. destruct (bN (bsub mi x30)) as [|q'] eqn:Eb; [|reflexivity].
    exfalso. apply H. exists c. right. right. rewrite (A 2%N eq_refl ltac:(reflexivity)), (C 0%N eq_refl ltac:(reflexivity)). reflexivity.
  - destruct (bN (bsub mi x30)) as [|[q'|q'|]] eqn:Eb; try reflexivity.
    + exfalso. apply H. exists c. left. rewrite (A 1%N eq_refl ltac:(reflexivity)), (C 0%N eq_refl ltac:(reflexivity)). reflexivity.
    + exfalso. apply H. exists c. right. left. rewrite (A 1%N eq_refl ltac:(reflexivity)), (C 1%N eq_refl ltac:(reflexivity)). reflexivity.
Qed.
Lemma decodes_nonempty : forall s d, LooselyDecodes s d -> s <> [] -> exists x y, uri_decode s = Some d /\ s = x :: y.
Proof. intros s d H Hs. destruct s as [|x y]; [contradiction|]. exists x, y. split; [apply decodes_exactly; exact H|reflexivity]. Qed.

Lemma line_refused : forall m l e, LineRefused m l e ->
  (forall p rest, exists q, method_end p m rest = Ret (RErr q e)) \/
  (method_parse m <> MUnknown /\ forall p, exists q, request_line p l = inl (RErr q e)).
Proof.
  intros m l e H. destruct H as [l|m l Hm Hn|m l Hm Hl|m target v Hm Hv Hs Hp|m target v a d t Hm Hv Hs Hp Ha Ht|m target v d Hm Hv Hs Hp Hd Hr].
  - left. intros p rest. eexists. reflexivity.
  - left. intros p rest. unfold method_end. rewrite (method_unknown m Hn). destruct m; [contradiction|]. eexists. reflexivity.
  - right. split; [exact (method_known m Hm)|]. intros p. unfold request_line. apply cut_last_none in Hl. rewrite Hl. eexists. reflexivity.
  - right. split; [exact (method_known m Hm)|]. intros p. unfold request_line. rewrite (cut_last_app target SP v Hs).
    destruct (last_byte v) as [c|] eqn:El; [|apply last_byte_none in El; contradiction]. unfold path_part in Hp.
    destruct (cut target x3f) as [[a b]|]; subst; eexists; reflexivity.
  - right. split; [exact (method_known m Hm)|]. intros p. unfold request_line. rewrite (cut_last_app target SP v Hs).
    destruct (last_byte v) as [c|] eqn:El; [|apply last_byte_none in El; contradiction]. unfold path_part in Hp.
    assert (U : uri_decode (a ++ x25 :: t) = None) by (apply refused_exactly; exists a, d, t; auto).
    destruct (cut target x3f) as [[a0 b]|]; subst; cbn zeta; destruct (a ++ x25 :: t) as [|x y] eqn:Ex; try (destruct a; discriminate); rewrite U; eexists; reflexivity.
  - right. split; [exact (method_known m Hm)|]. intros p. unfold request_line. rewrite (cut_last_app target SP v Hs).
    destruct (last_byte v) as [c|] eqn:El; [|apply last_byte_none in El; contradiction]. cbn zeta. rewrite (bare_model v c El), (version_unknown _ Hr). unfold path_part in Hp, Hd.
    destruct (cut target x3f) as [[a0 b]|]; destruct (decodes_nonempty _ _ Hd Hp) as (x & y & U & E); rewrite U; subst; eexists; reflexivity.
Qed.

Lemma cut_first : forall (d : bytes) c l r t, d ++ t = l ++ c :: r -> ~ In c l -> forall a b, cut d c = Some (a, b) -> a = l /\ b ++ t = r.
Proof.
  intros d c l r t E Hl a b Hc. apply (cut_more _ _ _ _ t) in Hc. rewrite E, cut_app in Hc by exact Hl. injection Hc as -> ->. split; reflexivity.
Qed.
Lemma cut_short : forall (d : bytes) c l r t, d ++ t = l ++ c :: r -> ~ In c l -> cut d c = None -> exists l', l = d ++ l' /\ t = l' ++ c :: r.
Proof.
  intros d c l r t E Hl Hc. pose proof (cut_later _ _ t Hc) as K. rewrite E, cut_app in K by exact Hl. destruct (cut t c) as [[a b]|] eqn:Et; [|discriminate].
  injection K as -> ->. exists a. split; [reflexivity|]. apply cut_some in Et. exact (proj1 Et).
Qed.
Lemma nil_not_cut : forall A (l : list A) c r, [] <> l ++ c :: r.
Proof. intros A l c r E. destruct l; discriminate. Qed.
Lemma run_ret : forall cfg f l p d r, step cfg l p d = Ret r -> run cfg (S f) l p d = r.
Proof. intros cfg f l p d r H. cbn [run]. rewrite H. reflexivity. Qed.

(* the rest of the line *)
Lemma path_feed : forall cfg e rest l reads p, p_state p = ePath -> concat reads = l ++ LF :: rest -> ~ In LF l ->
  used p + len l <= b_max (p_start p) ->
  (forall q, exists q', request_line q (b_seg (p_start p) ++ l) = inl (RErr q' e)) ->
  exists q, fst (feed cfg p reads) = RErr q e.
Proof.
  intros cfg e rest l reads. revert l. induction reads as [|d reads IH]; intros l p Hs E Hl Hr Hq; [exfalso; exact (nil_not_cut _ _ _ _ E)|].
  cbn [concat] in E. cbn [feed]. unfold parse. rewrite Hs.
  assert (R : roomy ePath p d).
  { unfold roomy. destruct (cut d LF) as [[a b]|] eqn:Ec.
    - destruct (cut_first _ _ _ _ _ E Hl _ _ Ec) as [-> _]. unfold line_part. rewrite Ec. exact Hr.
    - destruct (cut_short _ _ _ _ _ E Hl Ec) as (l' & -> & _). unfold line_part. rewrite Ec. rewrite len_app in Hr. pose proof (len_nonneg l'). lia. }
  assert (S0 := path_room p d R). destruct (cut d LF) as [[a b]|] eqn:Ec.
  - destruct (cut_first _ _ _ _ _ E Hl _ _ Ec) as [-> _]. destruct (Hq (set_p_start (Buffer (b_done (p_start p) ++ b_seg (p_start p) ++ l) [] (b_max (p_start p))) p)) as (q' & Eq).
    rewrite Eq in S0. rewrite (run_ret cfg _ ePath _ _ _ S0). exists q'. reflexivity.
  - rewrite (run_ret cfg _ ePath _ _ _ S0). destruct (cut_short _ _ _ _ _ E Hl Ec) as (l' & -> & E').
    apply (IH l'); [reflexivity|exact E'|intros K; apply Hl; apply in_or_app; right; exact K| |].
    + unfold used in *. cbn [set_p_state set_p_start p_start b_done b_seg b_max]. rewrite !len_app in *. lia.
    + intros q. cbn [set_p_state set_p_start p_start b_seg]. rewrite <- app_assoc. apply Hq.
Qed.
(* the whole line *)
Lemma line_feed : forall cfg e rest l m0 m reads p, p_state p = eMethod -> b_seg (p_start p) = m0 -> concat reads = m ++ SP :: l ++ LF :: rest ->
  ~ In SP m -> ~ In LF l -> used p + len m + len l <= b_max (p_start p) ->
  ((forall p rest, exists q, method_end p (m0 ++ m) rest = Ret (RErr q e)) \/
   (method_parse (m0 ++ m) <> MUnknown /\ forall p, exists q, request_line p l = inl (RErr q e))) ->
  exists q, fst (feed cfg p reads) = RErr q e.
Proof.
  intros cfg e rest l m0 m reads. revert m0 m. induction reads as [|d reads IH]; intros m0 m p Hs Hm0 E Hm Hl Hr V; [exfalso; exact (nil_not_cut _ _ _ _ E)|].
  cbn [concat] in E. cbn [feed]. unfold parse. rewrite Hs. destruct (cut d SP) as [[a b]|] eqn:Ec.
  - destruct (cut_first _ _ _ _ _ E Hm _ _ Ec) as [-> Eb].
    assert (Rl : len (line_part b) <= len l).
    { unfold line_part. destruct (cut b LF) as [[x y]|] eqn:Ex; [destruct (cut_first _ _ _ _ _ Eb Hl _ _ Ex) as [-> _]; lia|].
      destruct (cut_short _ _ _ _ _ Eb Hl Ex) as (l' & -> & _). rewrite len_app. pose proof (len_nonneg l'). lia. }
    assert (R : roomy eMethod p d). { unfold roomy, start_part. rewrite Ec, len_app. lia. }
    assert (S0 := method_room p d R). rewrite Ec, Hm0 in S0. set (p1 := match m0 with [] => p | _ => _ end) in S0.
    destruct V as [V|[Vm V]]; [destruct (V p1 b) as (q & Eq); rewrite Eq in S0; rewrite (run_ret cfg _ eMethod _ _ _ S0); exists q; reflexivity|].
    assert (F : exists p2, method_end p1 (m0 ++ m) b = Goto ePath p2 b /\ p_start p2 = p_start p1).
    { unfold method_end. destruct (m0 ++ m) as [|x y]; [exfalso; apply Vm; reflexivity|]. cbn zeta. destruct (method_parse (x :: y)); try contradiction; eexists; split; reflexivity. }
    destruct F as (p2 & F & Fs). rewrite F in S0.
    assert (U : used p2 + len l <= b_max (p_start p2) /\ b_seg (p_start p2) = []).
    { unfold used in *. rewrite Fs. unfold p1. destruct m0 as [|x y] eqn:Em.
      - rewrite Hm0 in *. pose proof (len_nonneg m). split; [lia|reflexivity].
      - cbn [set_p_start p_start b_done b_seg b_max]. rewrite !len_app. rewrite Hm0 in Hr. split; [change (len []) with 0; lia|reflexivity]. }
    destruct U as [U Us].
    destruct d as [|c d]; [discriminate|]. cbn [List.length]. cbn [run]. change (step cfg eMethod p (c :: d)) with (step_method p (c :: d)). rewrite S0.
    assert (R2 : roomy ePath p2 b) by (unfold roomy; lia). assert (S1 := path_room p2 b R2). rewrite Us, app_nil_l in S1.
    change (step cfg ePath p2 b) with (step_path p2 b). destruct (cut b LF) as [[x y]|] eqn:Ex.
    + destruct (cut_first _ _ _ _ _ Eb Hl _ _ Ex) as [-> _]. destruct (V (set_p_start (Buffer (b_done (p_start p2) ++ [] ++ l) [] (b_max (p_start p2))) p2)) as (q & Eq).
      cbn [app] in Eq, S1. rewrite Eq in S1. rewrite S1. exists q. reflexivity.
    + rewrite S1. destruct (cut_short _ _ _ _ _ Eb Hl Ex) as (l' & -> & E').
      apply (path_feed cfg e rest l' reads); [reflexivity|exact E'|intros K; apply Hl; apply in_or_app; right; exact K| |].
      * unfold used in *. cbn [set_p_state set_p_start p_start b_done b_seg b_max]. rewrite Us in U. rewrite !len_app in *. change (len []) with 0 in *. lia.
      * intros q. cbn [set_p_state set_p_start p_start b_seg]. exact (V q).
  - destruct (cut_short _ _ _ _ _ E Hm Ec) as (m' & -> & E').
    assert (R : roomy eMethod p d). { unfold roomy, start_part. rewrite Ec. rewrite len_app in Hr. pose proof (len_nonneg m'). pose proof (len_nonneg l). lia. }
    assert (S0 := method_room p d R). rewrite Ec in S0. rewrite (run_ret cfg _ eMethod _ _ _ S0).
    apply (IH (m0 ++ d) m'); [exact Hs|cbn [set_p_start p_start b_seg]; rewrite Hm0; reflexivity|exact E'|intros K; apply Hm; apply in_or_app; right; exact K|exact Hl| |].
    + unfold used in *. cbn [set_p_start p_start b_done b_seg b_max]. rewrite !len_app in *. lia.
    + rewrite <- app_assoc. exact V.
Qed.
Lemma refused_line : forall cfg umax kmax vmax p m l rest e reads, Ready umax kmax vmax p -> concat reads = m ++ SP :: l ++ LF :: rest ->
  ~ In SP m -> ~ In LF l -> len (m ++ l) <= umax -> LineRefused m l e -> exists q, fst (feed cfg p reads) = RErr q e.
Proof.
  intros cfg umax kmax vmax p m l rest e reads R E Hm Hl L V. destruct R as (R1 & R2 & _).
  apply (line_feed cfg e rest l [] m reads p R1); [rewrite R2; reflexivity|exact E|exact Hm|exact Hl| |exact (line_refused m l e V)].
  unfold used. rewrite R2. cbn [b_done b_seg b_max]. rewrite len_app in L. change (len []) with 0. lia.
Qed.
