(* Lemmas: dates. *)
From Coq Require Import List Lia ZArith.
From Verif Require Import M_Base M_Time S_KeyValue S_Agent L_Base.
Import ListNotations.
Open Scope Z_scope.
Ltac divs := Z.to_euclidean_division_equations.

(* ---- years ---- *)
Definition dby (a : Z) : Z := 365 * a + a / 4 - a / 100 + a / 400.
Definition year_len (a : Z) : Z := if is_leap (a + zero_year) then 366 else 365.
Lemma leap_from_zero : forall a, is_leap (a + zero_year) = ((a + 1) mod 4 =? 0) && (negb ((a + 1) mod 100 =? 0) || ((a + 1) mod 400 =? 0)).
Proof.
  intros a. unfold is_leap, zero_year.
  replace ((a + -292277022399) mod 4) with ((a + 1) mod 4) by (replace (a + -292277022399) with (a + 1 + (-73069255600) * 4) by lia; rewrite Z.mod_add by lia; reflexivity).
  replace ((a + -292277022399) mod 100) with ((a + 1) mod 100) by (replace (a + -292277022399) with (a + 1 + (-2922770224) * 100) by lia; rewrite Z.mod_add by lia; reflexivity).
  replace ((a + -292277022399) mod 400) with ((a + 1) mod 400) by (replace (a + -292277022399) with (a + 1 + (-730692556) * 400) by lia; rewrite Z.mod_add by lia; reflexivity).
  reflexivity.
Qed.
Lemma year_len_next : forall a, dby (a + 1) = dby a + year_len a.
Proof.
  intros a. unfold dby, year_len. rewrite leap_from_zero.
  destruct (Z.eqb_spec ((a + 1) mod 4) 0), (Z.eqb_spec ((a + 1) mod 100) 0), (Z.eqb_spec ((a + 1) mod 400) 0); cbn [andb orb negb]; divs; lia.
Qed.
Lemma dby_mono : forall a b, a <= b -> dby a <= dby b.
Proof. intros a b H. unfold dby. divs. lia. Qed.
Lemma year_len_cases : forall a, year_len a = 365 \/ year_len a = 366.
Proof. intros a. unfold year_len. destruct (is_leap _); auto. Qed.
Lemma abs_year_ok : forall d, exists a yd, abs_year d = (a + zero_year, yd) /\ d = dby a + yd /\ 0 <= yd < year_len a.
Proof.
  intros d.
  set (a4 := d / 146097). set (b := d - 146097 * a4).
  assert (Hb : 0 <= b < 146097) by (unfold b, a4; divs; lia).
  set (c := b / 36524 - b / 36524 / 4). set (r := b - 36524 * c).
  assert (Hc : 0 <= c <= 3 /\ 0 <= r <= 36524 /\ (c < 3 -> r < 36524)) by (unfold r, c; divs; lia).
  set (e := r / 1461). set (s := r - 1461 * e).
  assert (He : 0 <= e <= 24 /\ 0 <= s <= 1460 /\ (e = 24 -> c < 3 -> s < 1460)) by (unfold s, e; divs; lia).
  set (f := s / 365 - s / 365 / 4).
  assert (Hf : 0 <= f <= 3 /\ 0 <= s - 365 * f <= 365 /\ (s - 365 * f = 365 -> f = 3 /\ s = 1460)) by (unfold f; divs; lia).
  exists (400 * a4 + 100 * c + 4 * e + f), (s - 365 * f).
  split.
  { unfold abs_year. fold a4. fold b. fold c. fold r. fold e. fold s. fold f. reflexivity. }
  assert (Ed : d = 146097 * a4 + 36524 * c + 1461 * e + s) by (unfold s, r, b; lia).
  clearbody f. clearbody s. clearbody e. clearbody r. clearbody c. clearbody b. clearbody a4.
  split.
  { unfold dby. replace ((400 * a4 + 100 * c + 4 * e + f) / 4) with (100 * a4 + 25 * c + e) by (divs; lia).
    replace ((400 * a4 + 100 * c + 4 * e + f) / 100) with (4 * a4 + c) by (divs; lia).
    replace ((400 * a4 + 100 * c + 4 * e + f) / 400) with a4 by (divs; lia).
    lia. }
  unfold year_len. rewrite leap_from_zero. destruct (Z.eqb_spec (s - 365 * f) 365) as [E|E].
  - destruct Hf as (_ & _ & Hf). destruct (Hf E) as [F1 F2]. 
    destruct (Z.eqb_spec ((400 * a4 + 100 * c + 4 * e + f + 1) mod 4) 0) as [_|N]; [|exfalso; apply N; divs; lia].
    destruct (Z.eqb_spec ((400 * a4 + 100 * c + 4 * e + f + 1) mod 100) 0) as [N|N]; [|cbn [andb orb negb]; lia].
    destruct (Z.eqb_spec ((400 * a4 + 100 * c + 4 * e + f + 1) mod 400) 0) as [N4|N4]; [cbn [andb orb negb]; lia|]. exfalso.
    assert (e = 24) by (divs; lia). assert (c = 3) by lia. apply N4. divs. lia.
  - destruct (_ && _); lia.
Qed.
Lemma abs_year_unique : forall a yd, 0 <= yd < year_len a -> abs_year (dby a + yd) = (a + zero_year, yd).
Proof.
  intros a yd H. destruct (abs_year_ok (dby a + yd)) as (a' & yd' & E & D & R).
  assert (a' = a).
  { destruct (Z.lt_trichotomy a a') as [L|[L|L]]; [|symmetry; exact L|].
    - pose proof (dby_mono (a + 1) a' ltac:(lia)). pose proof (year_len_next a). lia.
    - pose proof (dby_mono (a' + 1) a ltac:(lia)). pose proof (year_len_next a'). lia. }
  subst a'. rewrite E. f_equal. lia.
Qed.

(* ---- months ---- *)
Definition ml (leap : bool) (m : Z) : Z := nth (Z.to_nat m) [0; 31; if leap then 29 else 28; 31; 30; 31; 30; 31; 31; 30; 31; 30; 31] 0.
Definition days_upto (leap : bool) (m : Z) : Z := days_before (m - 1) + (if leap && (2 <? m) then 1 else 0).
Definition md_ok (leap : bool) (yd : Z) : bool :=
  let '(m, d) := month_day leap yd in
  (1 <=? m) && (m <=? 12) && (1 <=? d) && (d <=? ml leap m) && (yd =? days_upto leap m + d - 1).
Definition md_next (leap : bool) (yd : Z) : bool :=
  let '(m, d) := month_day leap yd in let '(m', d') := month_day leap (yd + 1) in
  ((m' =? m) && (d' =? d + 1) && (d <? ml leap m)) || ((m' =? m + 1) && (d' =? 1) && (d =? ml leap m) && (m <? 12)).
Definition len_of (leap : bool) : Z := if leap then 366 else 365.
Lemma below : forall (P : Z -> bool) n, forallb (fun k => P (Z.of_nat k)) (seq 0 n) = true -> forall z, 0 <= z < Z.of_nat n -> P z = true.
Proof.
  intros P n H z Hz. rewrite forallb_forall in H. specialize (H (Z.to_nat z)). rewrite Z2Nat.id in H by lia. apply H. apply in_seq. lia.
Qed.
Lemma md_all_ok : forall leap yd, 0 <= yd < len_of leap -> md_ok leap yd = true.
Proof. intros [|]; [apply (below _ 366)|apply (below _ 365)]; vm_compute; reflexivity. Qed.
Lemma md_all_next : forall leap yd, 0 <= yd < len_of leap - 1 -> md_next leap yd = true.
Proof. intros [|]; [apply (below _ 365)|apply (below _ 364)]; vm_compute; reflexivity. Qed.
Lemma md_last : forall leap, month_day leap (len_of leap - 1) = (12, 31).
Proof. intros [|]; reflexivity. Qed.
Lemma md_first : forall leap, month_day leap 0 = (1, 1).
Proof. intros [|]; reflexivity. Qed.
Lemma leap_iff : forall y, is_leap y = true <-> leap_year y.
Proof.
  intros y. unfold is_leap, leap_year. rewrite Bool.andb_true_iff, Bool.orb_true_iff, Bool.negb_true_iff, !Z.eqb_eq, Z.eqb_neq.
  split; [tauto|]. intros [H|H]; [tauto|]. split; [|tauto]. divs; lia.
Qed.
Lemma ml_length : forall y m, 1 <= m <= 12 -> MonthLength y m (ml (is_leap y) m).
Proof.
  intros y m H. assert (C : m = 1 \/ m = 2 \/ m = 3 \/ m = 4 \/ m = 5 \/ m = 6 \/ m = 7 \/ m = 8 \/ m = 9 \/ m = 10 \/ m = 11 \/ m = 12) by lia.
  destruct C as [->|[->|[->|[->|[->|[->|[->|[->|[->|[->|[->| ->]]]]]]]]]]]; unfold ml; cbn [Z.to_nat Pos.to_nat Pos.iter_op Nat.add nth];
    try (apply Ml_long; cbn; tauto); try (apply Ml_short; cbn; tauto).
  change (nth (Z.to_nat 2) _ 0) with (if is_leap y then 29 else 28).
  destruct (is_leap y) eqn:E; [apply Ml_leap; apply leap_iff; exact E|]. apply Ml_february. rewrite <- leap_iff. congruence.
Qed.
Lemma ml_unique : forall y m n, MonthLength y m n -> 1 <= m <= 12 /\ n = ml (is_leap y) m.
Proof.
  intros y m n H. destruct H as [m H|m H|H|H].
  - cbn in H. destruct H as [<-|[<-|[<-|[<-|[<-|[<-|[<-|[]]]]]]]]; split; try lia; reflexivity.
  - cbn in H. destruct H as [<-|[<-|[<-|[<-|[]]]]]; split; try lia; reflexivity.
  - split; [lia|]. apply leap_iff in H. rewrite H. reflexivity.
  - split; [lia|]. rewrite <- leap_iff in H. destruct (is_leap y); [destruct (H eq_refl)|reflexivity].
Qed.

(* ---- days ---- *)
Definition go_date (n : Z) : date :=
  let '(y, yd) := abs_year n in let '(m, d) := month_day (is_leap y) yd in Date y m d.
Lemma year_len_of : forall a, year_len a = len_of (is_leap (a + zero_year)).
Proof. reflexivity. Qed.
Lemma go_tomorrow : forall n, Tomorrow (go_date n) (go_date (n + 1)).
Proof.
  intros n. unfold go_date. destruct (abs_year_ok n) as (a & yd & E & D & R). rewrite E.
  destruct (Z.eqb_spec (yd + 1) (year_len a)) as [L|L].
  - replace (n + 1) with (dby (a + 1) + 0) by (rewrite year_len_next; lia).
    rewrite (abs_year_unique (a + 1) 0) by (pose proof (year_len_cases (a + 1)); lia).
    rewrite md_first. replace yd with (len_of (is_leap (a + zero_year)) - 1) by (rewrite <- year_len_of; lia). rewrite md_last.
    replace (a + 1 + zero_year) with (a + zero_year + 1) by lia. apply Tm_year.
  - replace (n + 1) with (dby a + (yd + 1)) by lia. rewrite (abs_year_unique a (yd + 1)) by lia.
    set (lp := is_leap (a + zero_year)) in *.
    pose proof (md_all_next lp yd ltac:(rewrite year_len_of in *; fold lp in R, L; lia)) as HN. pose proof (md_all_ok lp yd ltac:(rewrite year_len_of in *; fold lp in R; lia)) as HO.
    unfold md_next in HN. unfold md_ok in HO. destruct (month_day lp yd) as [m d]. destruct (month_day lp (yd + 1)) as [m' d'].
    rewrite !Bool.andb_true_iff, !Z.leb_le in HO. destruct HO as ((((O1 & O2) & O3) & O4) & _).
    rewrite Bool.orb_true_iff, !Bool.andb_true_iff, !Z.eqb_eq, !Z.ltb_lt in HN.
    pose proof (ml_length (a + zero_year) m ltac:(lia)) as HM. fold lp in HM.
    destruct HN as [((-> & ->) & H)|(((-> & ->) & H) & H2)].
    + eapply Tm_day; [exact HM|exact O3|exact H].
    + rewrite H. apply Tm_month; [exact HM|exact H2].
Qed.
Definition epoch : Z := to_abs / 86400.
Lemma go_epoch : go_date epoch = Date 1970 1 1.
Proof. vm_compute. reflexivity. Qed.
Lemma go_on_day : forall n, OnDay (n - epoch) (go_date n).
Proof.
  assert (H1 : forall k : nat, OnDay (Z.of_nat k) (go_date (epoch + Z.of_nat k))).
  { induction k as [|k IH]; [change (Z.of_nat 0) with 0; rewrite Z.add_0_r, go_epoch; apply Od_epoch|].
    rewrite Nat2Z.inj_succ. unfold Z.succ. rewrite Z.add_assoc. apply (Od_after _ _ _ IH). apply go_tomorrow. }
  assert (H2 : forall k : nat, OnDay (- Z.of_nat k) (go_date (epoch - Z.of_nat k))).
  { induction k as [|k IH]; [change (Z.of_nat 0) with 0; rewrite Z.sub_0_r, go_epoch; apply Od_epoch|].
    apply (Od_before _ _ (go_date (epoch - Z.of_nat k))).
    - replace (- Z.of_nat (S k) + 1) with (- Z.of_nat k) by lia. exact IH.
    - replace (epoch - Z.of_nat k) with (epoch - Z.of_nat (S k) + 1) by lia. apply go_tomorrow. }
  intros n. destruct (Z.le_ge_cases 0 (n - epoch)) as [H|H].
  - specialize (H1 (Z.to_nat (n - epoch))). rewrite Z2Nat.id in H1 by lia. replace (epoch + (n - epoch)) with n in H1 by lia. exact H1.
  - specialize (H2 (Z.to_nat (epoch - n))). rewrite Z2Nat.id in H2 by lia. replace (epoch - (epoch - n)) with n in H2 by lia. replace (- (epoch - n)) with (n - epoch) in H2 by lia. exact H2.
Qed.
(* the number of a day is determined by its date *)
Definition day_number (x : date) : Z := dby (dt_year x - zero_year) + days_upto (is_leap (dt_year x)) (dt_month x) + dt_day x - 1 - epoch.
Lemma upto_next : forall lp m, 1 <= m < 12 -> days_upto lp (m + 1) = days_upto lp m + ml lp m.
Proof.
  intros lp m H. assert (C : m = 1 \/ m = 2 \/ m = 3 \/ m = 4 \/ m = 5 \/ m = 6 \/ m = 7 \/ m = 8 \/ m = 9 \/ m = 10 \/ m = 11) by lia.
  destruct C as [->|[->|[->|[->|[->|[->|[->|[->|[->|[->| ->]]]]]]]]]]; destruct lp; reflexivity.
Qed.
Lemma number_tomorrow : forall a b, Tomorrow a b -> day_number b = day_number a + 1.
Proof.
  intros a b H. destruct H as [y m d n H1 H2 H3|y m n H1 H2|y]; unfold day_number; cbn [dt_year dt_month dt_day].
  - lia.
  - destruct (ml_unique _ _ _ H1) as [H3 ->]. rewrite (upto_next _ m) by lia. lia.
  - replace (y + 1 - zero_year) with (y - zero_year + 1) by lia. rewrite year_len_next. unfold year_len. replace (y - zero_year + zero_year) with y by lia.
    replace (days_upto (is_leap (y + 1)) 1) with 0 by (destruct (is_leap (y + 1)); reflexivity).
    destruct (is_leap y); [change (days_upto true 12) with 335|change (days_upto false 12) with 334]; lia.
Qed.
Lemma on_day_number : forall n x, OnDay n x -> n = day_number x.
Proof.
  intros n x H. induction H as [|n a b H IH HT|n a b H IH HT].
  - vm_compute. reflexivity.
  - rewrite (number_tomorrow _ _ HT). lia.
  - rewrite (number_tomorrow _ _ HT) in IH. lia.
Qed.
