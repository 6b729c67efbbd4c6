(* The verdict on any reads. *)
From Verif Require Import M_Base L_Base M_Status M_Method M_Proto M_Uri M_KeyValue M_Query M_Request
  M_Parser S_Parser S_Head S_Split S_Verdict S_Arrive L_Parser L_Head L_Uri L_Loose L_Tables L_Safe L_Split L_Refuse L_Verdict L_Arrive L_Arrive2 L_Arrive3 L_Arrive4 L_Arrive5.
Local Arguments cut : simpl never.
Local Arguments cut_last : simpl never.
Local Open Scope Z_scope.

Lemma without_concat : forall reads x t, concat reads = x ++ t -> concat (without (List.length x) reads) = t.
Proof.
  induction reads as [|d reads IH]; intros x t E; cbn [concat] in E; [destruct x; [exact E|discriminate E]|]. cbn [without].
  destruct (Nat.leb_spec (List.length x) (List.length d)) as [A|A].
  - cbn [concat]. assert (K : exists y, d = x ++ y /\ y ++ concat reads = t).
    { clear IH. revert d E A. induction x as [|c x IH]; intros d E A; [exists d; split; [reflexivity|exact E]|]. destruct d as [|c' d]; [cbn [List.length] in A; lia|]. cbn [app] in E. injection E as <- E.
      destruct (IH d E ltac:(cbn [List.length] in A; lia)) as (y & -> & Ey). exists y. split; [reflexivity|exact Ey]. }
    destruct K as (y & -> & Ey). rewrite skipn_app, skipn_all, Nat.sub_diag. exact Ey.
  - assert (K : exists y, x = d ++ y /\ concat reads = y ++ t).
    { clear IH. revert x E A. induction d as [|c d IH]; intros x E A; [exists x; split; [reflexivity|exact E]|]. destruct x as [|c' x]; [cbn [List.length] in A; lia|]. cbn [app] in E. injection E as <- E.
      destruct (IH x E ltac:(cbn [List.length] in A; lia)) as (y & -> & Ey). exists y. split; [reflexivity|exact Ey]. }
    destruct K as (y & -> & Ey). rewrite app_length. replace (List.length d + List.length y - List.length d)%nat with (List.length y) by lia. exact (IH y t Ey).
Qed.
Lemma without_method : forall reads m c t, concat reads = m ++ c :: t -> concat (without (List.length m + 1) reads) = t.
Proof.
  intros reads m c t E. replace (List.length m + 1)%nat with (List.length (m ++ [c])) by (rewrite app_length; reflexivity). apply without_concat. rewrite <- app_assoc. exact E.
Qed.

Section Follow.
Variable cfg : hcfg.
Variables umax kmax vmax : Z.
Notation lim := (cfg_limits cfg umax kmax vmax).
Hypothesis U : 0 <= umax.

(* a known method *)
Lemma known_method : forall p reads m t, Ready umax kmax vmax p -> concat reads = m ++ SP :: t -> In m method_names -> len (kept reads m) <= umax ->
  exists s, feed cfg p reads = feed_at cfg ePath (at_path m (at_line p (kept reads m) umax s)) (without (List.length m + 1) reads).
Proof.
  intros p reads m t R E Hm L. destruct R as (R1 & R2 & _). destruct (method_spelled m Hm) as [Hs _].
  destruct (method_phase cfg umax reads p [] R1 R2 (fun F => F) U) as (_ & _ & M). destruct (M m t E Hs) as [_ M1]. destruct (M1 L) as (s & M2). exists s.
  cbn [app held_method] in M2. rewrite (method_next _ m t Hm) in M2. exact M2.
Qed.
(* ... and the line behind it *)
Lemma known_line : forall p reads m l t, Ready umax kmax vmax p -> concat reads = m ++ SP :: l ++ LF :: t -> In m method_names -> ~ In LF l -> len (kept reads m) + len l <= umax ->
  exists s dn, match request_line (at_line (at_path m p) dn umax s) l with
               | inl r => ended r -> fst (feed cfg p reads) = r
               | inr p2 => feed cfg p reads = feed_at cfg eHeaderKey p2 (without (List.length m + List.length l + 2) reads)
               end.
Proof.
  intros p reads m l t R E Hm Hl L. pose proof (len_nonneg l). destruct (known_method p reads m _ R E Hm ltac:(lia)) as (s & F). rewrite F. set (p' := at_path m (at_line p (kept reads m) umax s)).
  pose proof (without_method _ _ _ _ E) as W.
  destruct (path_phase cfg umax (without (List.length m + 1) reads) p' (kept reads m) [] eq_refl ltac:(change (len []) with 0; lia)) as [_ P]. rewrite W in P.
  rewrite line_of in P by exact Hl. destruct P as [_ P]; [change (len []) with 0; lia|]. destruct (P l t eq_refl Hl) as (s' & dn & P1). exists s', dn. cbn [app] in P1.
  change (at_line p' dn umax s') with (at_line (at_path m p) dn umax s') in P1. destruct (request_line _ l); [exact P1|]. rewrite P1, without_without. f_equal. f_equal. lia.
Qed.

Lemma head_follow : forall reads v, HeadHeard lim reads v -> forall p, Ready umax kmax vmax p -> Follows lim (p_req p) (feed cfg p reads) v.
Proof.
  intros reads v H p R. pose proof R as (R1 & R2 & R3 & R4 & R5 & R6). destruct (method_phase cfg umax reads p [] R1 R2 (fun F => F) U) as (M1 & M2 & M3). change (len []) with 0 in M1, M2.
  destruct H as [Hs L|Hs L|m t E Hs L|t E|m t E Hs L Hn Hm|m t E Hm L1 L2|m t E Hm Hl L|m l t e E Hm Hl L Hb|m l t E Hm Hl L|m l t h t' v E Hl L Hg Hh Hv].
  - destruct (M2 Hs ltac:(cbn [lim_line cfg_limits] in L; lia)) as (q & Q). exists q. exact Q.
  - destruct (M1 Hs ltac:(cbn [lim_line cfg_limits] in L; lia)) as (q & Q1 & Q2). exists q. split; [exact Q1|]. rewrite Q2. reflexivity.
  - destruct (M3 m t E Hs) as [M4 _]. destruct (M4 L) as (q & Q1 & Q2). exists q. split; [exact Q1|]. rewrite Q2. reflexivity.
  - destruct (M3 [] t E (fun F => F)) as [_ M4]. assert (K : held_method [] reads [] = []) by (unfold held_method, kept; destruct (Nat.ltb _ _); reflexivity). rewrite K in M4.
    destruct (M4 U) as (s & M5). cbn [app method_end] in M5. eexists. split; [exact M5|reflexivity].
  - destruct (M3 m t E Hs) as [_ M4]. destruct (M4 L) as (s & M5). cbn [app] in M5. unfold method_end in M5. rewrite (method_unknown m Hm) in M5. destruct m as [|x m]; [contradiction|]. cbv zeta in M5.
    eexists. split; [exact M5|reflexivity].
  - cbn [lim_line cfg_limits] in *. destruct (known_method p reads m t R E Hm L1) as (s & F). rewrite F. set (p' := at_path m (at_line p (kept reads m) umax s)).
    destruct (path_phase cfg umax (without (List.length m + 1) reads) p' (kept reads m) [] eq_refl ltac:(change (len []) with 0; lia)) as [P _]. rewrite (without_method _ _ _ _ E) in P.
    destruct P as (q & Q1 & Q2); [change (len []) with 0; lia|]. exists q. split; [exact Q1|]. rewrite Q2. reflexivity.
  - cbn [lim_line cfg_limits] in *. pose proof (len_nonneg t). destruct (known_method p reads m t R E Hm ltac:(lia)) as (s & F). rewrite F. set (p' := at_path m (at_line p (kept reads m) umax s)).
    destruct (path_phase cfg umax (without (List.length m + 1) reads) p' (kept reads m) [] eq_refl ltac:(change (len []) with 0; lia)) as [_ P]. rewrite (without_method _ _ _ _ E) in P.
    rewrite line_of_all in P by exact Hl. destruct P as [P _]; [change (len []) with 0; lia|]. destruct (P Hl) as (q & Q). exists q. exact Q.
  - destruct (known_line p reads m l t R E Hm Hl L) as (s & dn & P). destruct (line_refused m l e Hb) as [V|[_ V]].
    { exfalso. destruct (V p []) as (q & V'). rewrite (method_next p m [] Hm) in V'. discriminate V'. }
    destruct (V (at_line (at_path m p) dn umax s)) as (q & Eq). rewrite Eq in P. exists q. split; [exact (P I)|]. exact (line_error_proto _ _ _ _ Eq).
  - assert (Hl' : ~ In LF (l ++ [SP])) by (rewrite in_app_iff; intros [K|[K|[]]]; [exact (Hl K)|discriminate K]).
    destruct (known_line p reads m (l ++ [SP]) t R ltac:(rewrite <- app_assoc; exact E) Hm Hl' ltac:(rewrite len_app; change (len [SP]) with 1; cbn [lim_line cfg_limits] in L; lia)) as (s & dn & P).
    unfold request_line in P. rewrite cut_last_app in P by (intros []). cbn [last_byte rev] in P. exact (P I).
  - destruct (good_method m l h Hg) as [Hm Hmp]. destruct (known_line p reads m l t R E Hm Hl L) as (s & dn & P). rewrite (good_line m l h _ Hg) in P. rewrite P. clear P.
    set (p2 := set_p_req _ _). set (r1 := line_effect h (set_method (h_method h) (p_req p))).
    assert (Q0 : p_req p2 = r1) by (unfold p2, r1, at_path; rewrite Hmp; reflexivity).
    assert (A : AInv cfg kmax vmax r1 p2 []).
    { constructor; [exists []; split; [exact R3|reflexivity]|exists []; split; [exact R4|reflexivity]|exact R5|]. cbn [fold_left]. rewrite Q0. f_equal. exact R6. }
    pose proof (heard cfg umax kmax vmax r1 [] _ t' Hh p2 (set_p_state eHeaderKey p2) p2 1%nat (S (List.length t')) A ltac:(cbn [List.length]; lia) eq_refl) as S0.
    change (p_state (set_p_state eHeaderKey p2)) with eHeaderKey in S0.
    assert (Nr : near (set_p_state eHeaderKey p2) p2) by (exists (p_state p2), (b_done (p_start p2)); destruct p2 as [? [? ? ?] ? ? ? ? ? ?]; reflexivity).
    specialize (S0 Nr ltac:(lia)).
    pose proof (lines_follow cfg umax kmax vmax r1 [] t' v Hv p2 (S (List.length t')) A ltac:(lia)) as O.
    destruct v as [|ls rest|e|]; cbn [AObeys of_lines Follows] in *.
    + destruct O as (q & O). rewrite O in S0. exact S0.
    + destruct O as (q & O & Q). rewrite O in S0. destruct S0 as (p' & e' & S1 & S2 & S3). exists p', e'. split; [exact S1|]. split; [exact S3|]. rewrite S2, Q.
      apply (taken_from cfg umax kmax vmax (with_lines ls h) (p_req p)). exact (lines_fine _ _ _ _ Hv (Forall_nil _) _ _ eq_refl).
    + destruct O as (q & O & Q). rewrite O in S0. destruct S0 as (p' & S1 & S2). exists p'. split; [exact S1|]. rewrite S2, Q. reflexivity.
    + rewrite O in S0. exact S0.
Qed.
End Follow.

(* every reads have a verdict *)
Lemma head_all : forall lim reads, exists v, HeadHeard lim reads v.
Proof.
  intros lim reads. destruct (cut (concat reads) SP) as [[m r]|] eqn:Ec.
  2:{ apply cut_none in Ec. destruct (Z_le_gt_dec (len (concat reads)) (lim_line lim)) as [L|L]; eexists; [apply Hh_method_more; assumption|apply Hh_method_long; assumption]. }
  apply cut_some in Ec. destruct Ec as [Ec Hs].
  destruct (Z_le_gt_dec (len (kept reads m)) (lim_line lim)) as [L0|L0]; [|eexists; eapply Hh_method_split; eassumption].
  destruct m as [|c0 m0]; [eexists; eapply Hh_no_method; exact Ec|]. set (m := c0 :: m0) in *.
  destruct (names_dec m) as [Hm|Hm]; [|eexists; eapply Hh_method; try eassumption; discriminate].
  destruct (Z_le_gt_dec (len (kept reads m) + len (line_part r)) (lim_line lim)) as [L|L]; [|eexists; eapply Hh_line_long; eassumption].
  destruct (cut r LF) as [[l rest]|] eqn:El.
  2:{ apply cut_none in El. rewrite line_of_all in L by exact El. eexists. eapply Hh_line_more; eassumption. }
  apply cut_some in El. destruct El as [-> Hl]. rewrite line_of in L by exact Hl.
  destruct (cut_last l SP) as [[tg v]|] eqn:Et.
  2:{ eexists. eapply Hh_line_bad; [exact Ec|exact Hm|exact Hl|exact L|]. apply Lr_no_version; [exact Hm|]. apply cut_last_none. exact Et. }
  apply cut_last_some in Et. destruct Et as [-> Hv]. destruct v as [|v0 v1].
  { exists VPanics. eapply Hh_line_blank; [rewrite <- app_assoc in Ec; exact Ec|exact Hm| |rewrite len_app in L; change (len [SP]) with 1 in L; lia].
    intros K. apply Hl. apply in_or_app. left. exact K. }
  set (v := v0 :: v1) in *. destruct (uri_decode (path_part tg)) as [d|] eqn:Hd.
  1: apply decodes_exactly in Hd.
  2:{ apply refused_exactly in Hd. destruct Hd as (a & d & s & Ha & Hlen & Hp). eexists. eapply Hh_line_bad; [exact Ec|exact Hm|exact Hl|exact L|]. eapply Lr_escape; try eassumption. discriminate. }
  destruct (path_part tg) as [|p0 p1] eqn:Ep.
  { eexists. eapply Hh_line_bad; [exact Ec|exact Hm|exact Hl|exact L|]. apply Lr_no_path; auto. discriminate. }
  destruct (version_cases (bare v)) as [Hr|(pr & Hr)].
  { eexists. eapply Hh_line_bad; [exact Ec|exact Hm|exact Hl|exact L|]. apply Lr_version with (d := d); auto; try discriminate; rewrite Ep; [discriminate|exact Hd]. }
  destruct (names_token m Hm) as (mm & Hmm & Em).
  assert (HT : exists t', LinesHeard lim [] (without (List.length m + List.length (tg ++ SP :: v) + 2) reads) t').
  { destruct lim as [ll lh lk lv l1 lt]. set (cfg := HCfg lh l1 lt). apply (heard_total cfg ll lk lv new_request _ [] (new_parser ll lk lv new_request)).
    constructor; [exists []; split; reflexivity|exists []; split; reflexivity|reflexivity|reflexivity]. }
  destruct HT as (t' & HT). destruct (lines_all lim (List.length t') t' ltac:(lia) []) as (w & Hw).
  set (q := match cut tg x3f with Some (_, q) => Some q | None => None end).
  exists (of_lines (Head mm (path_part tg) d q pr false [] false) w). eapply Hh_lines; [exact Ec|exact Hl|exact L| |exact HT|exact Hw].
  exists v. cbn [h_method h_proto h_path h_decoded]. split; [exact Hmm|]. split; [exact Em|]. split.
  - unfold target. cbn [h_path h_query]. unfold q. unfold path_part in *. destruct (cut tg x3f) as [[a b]|] eqn:Eq; [apply cut_some in Eq; rewrite (proj1 Eq); reflexivity|rewrite app_nil_r; reflexivity].
  - split; [exact Hv|]. split; [exact Hr|]. split; [rewrite Ep; discriminate|]. split; [|rewrite Ep; exact Hd].
    unfold path_part. destruct (cut tg x3f) as [[a b]|] eqn:Eq; [apply cut_some in Eq; exact (proj2 Eq)|apply cut_none; exact Eq].
Qed.

(* and only one *)
Lemma head_agree : forall lim reads v v', 0 <= lim_line lim -> HeadHeard lim reads v -> HeadHeard lim reads v' -> Agree v v'.
Proof.
  intros [u lh lk lv l1 lt] reads v v' U V V'. cbn [lim_line] in U. set (cfg := HCfg lh l1 lt).
  change (Limits u lh lk lv l1 lt) with (cfg_limits cfg u lk lv) in V, V'.
  assert (R : forall r, Ready u lk lv (new_parser u lk lv r)) by (intros r; repeat split).
  assert (O : forall r, Follows (cfg_limits cfg u lk lv) r (feed cfg (new_parser u lk lv r) reads) v /\ Follows (cfg_limits cfg u lk lv) r (feed cfg (new_parser u lk lv r) reads) v').
  { intros r. split; [exact (head_follow cfg u lk lv U reads v V _ (R r))|exact (head_follow cfg u lk lv U reads v' V' _ (R r))]. }
  destruct v as [|h rest|a e|], v' as [|h' rest'|a' e'|]; cbn [Agree Follows] in *; try exact I;
    try (exfalso; destruct (O new_request) as [P Q]; decompose [ex and] P; decompose [ex and] Q; repeat match goal with E : feed _ _ _ = _ |- _ => rewrite E in * end; cbn [fst] in *; congruence).
  - destruct (O new_request) as [(p & x & P1 & P2 & _) (q & y & Q1 & Q2 & _)]. rewrite P1 in Q1. injection Q1 as _ <-. congruence.
  - assert (F : e = e' /\ forall p, or_default a p = or_default a' p).
    { split; [destruct (O new_request) as [(p & P1 & _) (q & Q1 & _)]; congruence|]. intros pr. destruct (O (set_proto pr new_request)) as [(p & P1 & P2) (q & Q1 & Q2)].
      rewrite P1 in Q1. injection Q1 as <- _. rewrite P2 in Q2. exact Q2. }
    destruct F as [-> F]. split; [|reflexivity]. destruct a as [x|], a' as [y|]; cbn [or_default] in F.
    + rewrite (F PUnknown). reflexivity.
    + pose proof (F HTTP10) as F1. pose proof (F HTTP11) as F2. congruence.
    + pose proof (F HTTP10) as F1. pose proof (F HTTP11) as F2. congruence.
    + reflexivity.
Qed.
Lemma panics_always : forall cfg umax kmax vmax p reads, 0 <= umax -> Ready umax kmax vmax p ->
  (fst (feed cfg p reads) = RPanic <-> HeadHeard (cfg_limits cfg umax kmax vmax) reads VPanics).
Proof.
  intros cfg umax kmax vmax p reads U R. split.
  - intros E. destruct (head_all (cfg_limits cfg umax kmax vmax) reads) as (v & V).
    pose proof (head_follow cfg umax kmax vmax U _ v V p R) as O. destruct v as [|h rest|v e|]; cbn [Follows] in O; [| | |exact V].
    + destruct O as (q & O). rewrite O in E. discriminate E.
    + destruct O as (q & x & O & _). congruence.
    + destruct O as (q & O & _). congruence.
  - intros V. exact (head_follow cfg umax kmax vmax U _ _ V p R).
Qed.
