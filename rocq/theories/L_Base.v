(* Lemmas about the foundations in M_Base.v. *)
From Verif Require Import M_Base.

Lemma beq_refl : forall b, Byte.eqb b b = true.
Proof. intro b. apply Byte.byte_dec_lb. reflexivity. Qed.

Lemma beq_eq : forall a b, Byte.eqb a b = true <-> a = b.
Proof.
  intros a b. split; [apply Byte.byte_dec_bl | apply Byte.byte_dec_lb].
Qed.

Lemma beq_neq : forall a b, Byte.eqb a b = false <-> a <> b.
Proof.
  intros a b. split; intro H.
  - intro E. subst. rewrite beq_refl in H. discriminate.
  - destruct (Byte.eqb a b) eqn:E; [|reflexivity].
    apply beq_eq in E. contradiction.
Qed.

Lemma byte_eq_dec : forall a b : byte, {a = b} + {a <> b}.
Proof.
  intros a b. destruct (Byte.eqb a b) eqn:E.
  - left. apply beq_eq. exact E.
  - right. apply beq_neq. exact E.
Defined.

Lemma beqb_eq : forall a b, beqb a b = true <-> a = b.
Proof.
  induction a as [|x a IH]; destruct b as [|y b]; simpl; split; intro H;
    try reflexivity; try discriminate.
  - apply andb_true_iff in H. destruct H as [H1 H2].
    apply beq_eq in H1. apply IH in H2. subst. reflexivity.
  - injection H as -> ->. rewrite beq_refl. apply IH. reflexivity.
Qed.

Lemma beqb_refl : forall a, beqb a a = true.
Proof. intro a. apply beqb_eq. reflexivity. Qed.

Lemma beqb_neq : forall a b, beqb a b = false <-> a <> b.
Proof.
  intros a b. destruct (beqb a b) eqn:E; split; intro H; try discriminate; try reflexivity.
  - apply beqb_eq in E. contradiction.
  - intro Hc. subst. rewrite beqb_refl in E. discriminate.
Qed.

Lemma bytes_eq_dec : forall a b : bytes, {a = b} + {a <> b}.
Proof. apply list_eq_dec. apply byte_eq_dec. Defined.

(* cut *)
Lemma cut_some : forall l c a b,
  cut l c = Some (a, b) <-> (l = a ++ c :: b /\ ~ In c a).
Proof.
  induction l as [|x l IH]; intros c a b; simpl.
  - split; [discriminate|]. intros [H _]. destruct a; discriminate.
  - destruct (Byte.eqb x c) eqn:E.
    + apply beq_eq in E. subst x. split; intro H.
      * injection H as <- <-. split; [reflexivity | intros []].
      * destruct H as [H Hn]. destruct a as [|y a].
        -- injection H as <-. reflexivity.
        -- injection H as <- ->. exfalso. apply Hn. left. reflexivity.
    + apply beq_neq in E. destruct (cut l c) as [[a' b']|] eqn:Ec.
      * split; intro H.
        -- injection H as <- <-. apply IH in Ec. destruct Ec as [-> Hn].
           split; [reflexivity|]. intros [->|Hi]; [contradiction|auto].
        -- destruct H as [H Hn]. destruct a as [|y a].
           ++ injection H as -> ->. contradiction.
           ++ injection H as <- H. assert (Hc : Some (a', b') = Some (a, b)).
              { rewrite <- Ec. apply IH. split; [exact H|].
                intro Hi. apply Hn. right. exact Hi. }
              injection Hc as -> ->. reflexivity.
      * split; [discriminate|]. intros [H Hn]. exfalso. destruct a as [|y a].
        -- injection H as -> ->. contradiction.
        -- injection H as <- H.
           assert (Hc : cut l c = Some (a, b)).
           { apply IH. split; [exact H|]. intro Hi. apply Hn. right. exact Hi. }
           rewrite Ec in Hc. discriminate.
Qed.

Lemma cut_none : forall l c, cut l c = None <-> ~ In c l.
Proof.
  induction l as [|x l IH]; intro c; simpl.
  - split; [intros _ [] | reflexivity].
  - destruct (Byte.eqb x c) eqn:E.
    + apply beq_eq in E. subst. split; [discriminate|]. intro H. exfalso. apply H. left. reflexivity.
    + apply beq_neq in E. destruct (cut l c) as [[a b]|] eqn:Ec.
      * split; [discriminate|]. intro H. exfalso.
        assert (Hc : cut l c = None) by (apply IH; intro Hi; apply H; right; exact Hi).
        rewrite Hc in Ec. discriminate.
      * split; [|reflexivity]. intros _ [->|Hi]; [contradiction|].
        revert Hi. apply IH. exact Ec.
Qed.

Lemma cut_app : forall a c b, ~ In c a -> cut (a ++ c :: b) c = Some (a, b).
Proof. intros a c b H. apply cut_some. split; [reflexivity|exact H]. Qed.

Lemma cut_len : forall l c a b, cut l c = Some (a, b) ->
  List.length l = S (List.length a + List.length b).
Proof.
  intros l c a b H. apply cut_some in H. destruct H as [-> _].
  rewrite app_length. simpl. lia.
Qed.

(* cut_last *)
Lemma cut_last_none : forall l c, cut_last l c = None <-> ~ In c l.
Proof.
  induction l as [|x l IH]; intro c; simpl.
  - split; [intros _ [] | reflexivity].
  - destruct (cut_last l c) as [[a b]|] eqn:Ec.
    + split; [discriminate|]. intro H. exfalso.
      assert (Hc : cut_last l c = None) by (apply IH; intro Hi; apply H; right; exact Hi).
      rewrite Hc in Ec. discriminate.
    + destruct (Byte.eqb x c) eqn:E.
      * apply beq_eq in E. subst. split; [discriminate|]. intro H. exfalso. apply H. left. reflexivity.
      * apply beq_neq in E. split; [|reflexivity]. intros _ [->|Hi]; [contradiction|].
        revert Hi. apply IH. exact Ec.
Qed.

Lemma cut_last_some : forall l c a b,
  cut_last l c = Some (a, b) <-> (l = a ++ c :: b /\ ~ In c b).
Proof.
  induction l as [|x l IH]; intros c a b; simpl.
  - split; [discriminate|]. intros [H _]. destruct a; discriminate.
  - destruct (cut_last l c) as [[a' b']|] eqn:Ec.
    + split; intro H.
      * injection H as <- <-. apply IH in Ec. destruct Ec as [-> Hn].
        split; [reflexivity|exact Hn].
      * destruct H as [H Hn]. destruct a as [|y a].
        -- injection H as -> ->. apply cut_last_none in Hn. rewrite Hn in Ec. discriminate.
        -- injection H as <- H.
           assert (Hc : cut_last l c = Some (a, b)) by (apply IH; split; assumption).
           rewrite Ec in Hc. injection Hc as -> ->. reflexivity.
    + destruct (Byte.eqb x c) eqn:E.
      * apply beq_eq in E. subst x. split; intro H.
        -- injection H as <- <-. split; [reflexivity|]. apply cut_last_none. exact Ec.
        -- destruct H as [H Hn]. destruct a as [|y a].
           ++ injection H as <-. reflexivity.
           ++ injection H as <- ->. exfalso. apply cut_last_none in Ec. apply Ec.
              apply in_or_app. right. left. reflexivity.
      * split; [discriminate|]. intros [H Hn]. exfalso. apply beq_neq in E. destruct a as [|y a].
        -- injection H as -> ->. contradiction.
        -- injection H as <- ->. apply cut_last_none in Ec. apply Ec.
           apply in_or_app. right. left. reflexivity.
Qed.

Lemma cut_last_app : forall a c b, ~ In c b -> cut_last (a ++ c :: b) c = Some (a, b).
Proof. intros a c b H. apply cut_last_some. split; [reflexivity|exact H]. Qed.

(* index_byte agrees with cut *)
Lemma index_byte_cut : forall l c,
  index_byte l c = option_map (fun p => List.length (fst p)) (cut l c).
Proof.
  induction l as [|x l IH]; intro c; simpl; [reflexivity|].
  destruct (Byte.eqb x c); [reflexivity|]. rewrite IH.
  destruct (cut l c) as [[a b]|]; reflexivity.
Qed.

(* has_prefix, index_sub *)
Lemma has_prefix_iff : forall s p, has_prefix s p = true <-> exists r, s = p ++ r.
Proof.
  induction s as [|x s IH]; destruct p as [|y p]; simpl; split; intro H;
    try reflexivity; try discriminate; try (eexists; reflexivity).
  - destruct H as [r H]. discriminate.
  - apply andb_true_iff in H. destruct H as [H1 H2]. apply beq_eq in H1. subst.
    apply IH in H2. destruct H2 as [r ->]. exists r. reflexivity.
  - destruct H as [r H]. injection H as -> ->. rewrite beq_refl. apply IH. exists r. reflexivity.
Qed.

Lemma has_prefix_app : forall p r, has_prefix (p ++ r) p = true.
Proof. intros. apply has_prefix_iff. exists r. reflexivity. Qed.

Lemma index_sub_eq : forall s sub, index_sub s sub =
  if has_prefix s sub then Some 0%nat
  else match s with [] => None | _ :: s' => option_map S (index_sub s' sub) end.
Proof. destruct s; reflexivity. Qed.

Lemma index_sub_some : forall s sub i, index_sub s sub = Some i ->
  exists a b, s = a ++ sub ++ b /\ List.length a = i.
Proof.
  induction s as [|x s IH]; intros sub i H; rewrite index_sub_eq in H.
  - destruct (has_prefix [] sub) eqn:E; [|discriminate].
    apply has_prefix_iff in E. destruct E as [r E]. injection H as <-.
    exists [], r. split; [exact E|reflexivity].
  - destruct (has_prefix (x :: s) sub) eqn:E.
    + apply has_prefix_iff in E. destruct E as [r E]. injection H as <-.
      exists [], r. split; [exact E|reflexivity].
    + destruct (index_sub s sub) as [j|] eqn:Ej; [|discriminate].
      injection H as <-. destruct (IH _ _ Ej) as (a & b & -> & Hl).
      exists (x :: a), b. split; [reflexivity|]. simpl. lia.
Qed.

Lemma index_sub_none : forall s sub, index_sub s sub = None <->
  ~ exists a b, s = a ++ sub ++ b.
Proof.
  induction s as [|x s IH]; intro sub; rewrite index_sub_eq.
  - destruct (has_prefix [] sub) eqn:E.
    + split; [discriminate|]. intro H. exfalso. apply H.
      apply has_prefix_iff in E. destruct E as [r E]. exists [], r. exact E.
    + split; [|reflexivity]. intros _ (a & b & H).
      destruct a; simpl in H; [|discriminate H]. destruct sub; simpl in *; congruence.
  - destruct (has_prefix (x :: s) sub) eqn:E.
    + split; [discriminate|]. intro H. exfalso. apply H.
      apply has_prefix_iff in E. destruct E as [r E]. exists [], r. exact E.
    + destruct (index_sub s sub) as [j|] eqn:Ej.
      * split; [discriminate|]. intro H. exfalso.
        destruct (index_sub_some _ _ _ Ej) as (a & b & -> & _).
        apply H. exists (x :: a), b. reflexivity.
      * split; [|reflexivity]. intros _ (a & b & H). destruct a as [|y a].
        -- simpl in H. assert (Hp : has_prefix (x :: s) sub = true)
             by (apply has_prefix_iff; exists b; exact H). congruence.
        -- injection H as -> ->. apply (proj1 (IH sub) Ej). exists a, b. reflexivity.
Qed.

(* last_byte, drop_last *)
Lemma last_byte_none : forall l, last_byte l = None <-> l = [].
Proof.
  induction l as [|x l IH]; simpl; [tauto|].
  destruct l as [|y l]; [split; discriminate|].
  split; [|discriminate]. intro H. apply IH in H. discriminate.
Qed.

Lemma last_byte_snoc : forall l x, last_byte (l ++ [x]) = Some x.
Proof.
  induction l as [|y l IH]; intro x; [reflexivity|].
  simpl. rewrite IH. destruct (l ++ [x]) eqn:E; [|reflexivity].
  destruct l; discriminate.
Qed.

Lemma drop_last_snoc : forall l x, drop_last (l ++ [x]) = l.
Proof.
  induction l as [|y l IH]; intro x; [reflexivity|].
  simpl. rewrite IH. destruct (l ++ [x]) eqn:E; [|reflexivity].
  destruct l; discriminate.
Qed.

Lemma last_byte_some : forall l x, last_byte l = Some x -> l = drop_last l ++ [x].
Proof.
  induction l as [|y l IH]; intros x H; [discriminate|].
  simpl in H. destruct l as [|z l].
  - injection H as ->. reflexivity.
  - change (y :: z :: l = y :: (drop_last (z :: l) ++ [x])). f_equal. apply IH. exact H.
Qed.

Lemma drop_last_length : forall l, List.length (drop_last l) = pred (List.length l).
Proof.
  induction l as [|x l IH]; [reflexivity|]. destruct l as [|y l]; [reflexivity|].
  change (S (List.length (drop_last (y :: l))) = S (List.length l)).
  rewrite IH. reflexivity.
Qed.

Lemma snoc_case : forall (A : Type) (l : list A), l = [] \/ exists l' x, l = l' ++ [x].
Proof.
  intros A l. induction l as [|x l IH] using rev_ind; [left; reflexivity|].
  right. exists l, x. reflexivity.
Qed.

(* bytes and numbers *)
Lemma bN_lt : forall b, (bN b < 256)%N.
Proof. intro b. pose proof (Byte.to_N_bounded b). unfold bN. lia. Qed.

Lemma byte_of_N_bN : forall b, byte_of_N (bN b) = b.
Proof.
  intro b. unfold byte_of_N. rewrite N.mod_small by apply bN_lt.
  unfold bN. rewrite Byte.of_to_N. reflexivity.
Qed.

Lemma bN_byte_of_N : forall n, bN (byte_of_N n) = (n mod 256)%N.
Proof.
  intro n. unfold byte_of_N, bN.
  assert (H : (n mod 256 < 256)%N) by (apply N.mod_lt; lia).
  destruct (Byte.of_N (n mod 256)) as [b|] eqn:E.
  - apply Byte.to_of_N. exact E.
  - apply Byte.of_N_None_iff in E. lia.
Qed.

Lemma bN_inj : forall a b, bN a = bN b -> a = b.
Proof. intros a b H. rewrite <- (byte_of_N_bN a), H. apply byte_of_N_bN. Qed.

(* equal_fold is an equivalence *)
Lemma equal_fold_eq : forall a b, equal_fold a b = true <-> map lower a = map lower b.
Proof. intros. unfold equal_fold. apply beqb_eq. Qed.

Lemma equal_fold_refl : forall a, equal_fold a a = true.
Proof. intro. apply equal_fold_eq. reflexivity. Qed.

Lemma equal_fold_sym : forall a b, equal_fold a b = equal_fold b a.
Proof.
  intros. destruct (equal_fold a b) eqn:E; symmetry.
  - apply equal_fold_eq. symmetry. apply equal_fold_eq. exact E.
  - destruct (equal_fold b a) eqn:E2; [|reflexivity].
    apply equal_fold_eq in E2. symmetry in E2. apply equal_fold_eq in E2. congruence.
Qed.

Lemma equal_fold_trans : forall a b c,
  equal_fold a b = true -> equal_fold b c = true -> equal_fold a c = true.
Proof. intros a b c H1 H2. apply equal_fold_eq in H1, H2. apply equal_fold_eq. congruence. Qed.

Lemma equal_fold_length : forall a b, equal_fold a b = true -> List.length a = List.length b.
Proof.
  intros a b H. apply equal_fold_eq in H.
  rewrite <- (map_length lower a), H. apply map_length.
Qed.

(* digits *)
Definition digit_val (b : byte) : N :=
  if is_digit b then (bN b - 48)%N else (bN b - 87)%N.
Definition digits_val (base : N) (l : bytes) : N :=
  fold_left (fun a d => (a * base + digit_val d)%N) l 0%N.

Lemma digit_val_digit : forall d, (d < 16)%N -> digit_val (digit d) = d.
Proof.
  intros d H. unfold digit, digit_val, is_digit.
  destruct (d <? 10)%N eqn:E.
  - apply N.ltb_lt in E. rewrite bN_byte_of_N, N.mod_small by lia.
    replace (48 <=? 48 + d)%N with true by (symmetry; apply N.leb_le; lia).
    replace (48 + d <=? 57)%N with true by (symmetry; apply N.leb_le; lia).
    cbv [andb]. lia.
  - apply N.ltb_ge in E. rewrite bN_byte_of_N, N.mod_small by lia.
    replace (87 + d <=? 57)%N with false by (symmetry; apply N.leb_gt; lia).
    rewrite andb_false_r. lia.
Qed.

Lemma digit_is_digit : forall d, (d < 10)%N -> is_digit (digit d) = true.
Proof.
  intros d H. unfold digit, is_digit.
  replace (d <? 10)%N with true by (symmetry; apply N.ltb_lt; lia).
  rewrite bN_byte_of_N, N.mod_small by lia.
  apply andb_true_iff. split; apply N.leb_le; lia.
Qed.

Lemma fold_digits_shift : forall base l a,
  fold_left (fun a d => (a * base + digit_val d)%N) l a =
  (a * base ^ N.of_nat (List.length l) + digits_val base l)%N.
Proof.
  intros base l. unfold digits_val. induction l as [|x l IH]; intro a; cbn [fold_left].
  - change (N.of_nat (List.length (@nil byte))) with 0%N. rewrite N.pow_0_r. lia.
  - rewrite IH. rewrite (IH (0 * base + digit_val x)%N).
    simpl List.length. rewrite Nat2N.inj_succ, N.pow_succ_r'. lia.
Qed.

Lemma digits_val_cons : forall base x l,
  digits_val base (x :: l) = (digit_val x * base ^ N.of_nat (List.length l) + digits_val base l)%N.
Proof.
  intros. unfold digits_val at 1. cbn [fold_left]. rewrite N.mul_0_l, N.add_0_l. rewrite fold_digits_shift. reflexivity.
Qed.

Lemma digits_aux_val : forall fuel base n acc, (2 <= base <= 16)%N -> (n < base ^ N.of_nat fuel)%N ->
  digits_val base (digits_aux fuel base n acc) =
  (n * base ^ N.of_nat (List.length acc) + digits_val base acc)%N.
Proof.
  induction fuel as [|f IH]; intros base n acc Hb Hn.
  - simpl in Hn. assert (n = 0%N) by lia. subst. simpl. lia.
  - simpl digits_aux. destruct (n <? base)%N eqn:E.
    + apply N.ltb_lt in E. rewrite digits_val_cons.
      rewrite N.mod_small by lia. rewrite digit_val_digit by lia. reflexivity.
    + apply N.ltb_ge in E. rewrite IH; [|exact Hb|].
      * rewrite digits_val_cons. simpl List.length.
        assert (Hm : (n mod base < base)%N) by (apply N.mod_lt; lia).
        rewrite digit_val_digit by lia.
        rewrite Nat2N.inj_succ, N.pow_succ_r'.
        pose proof (N.div_mod n base). rewrite (H ltac:(lia)) at 3. lia.
      * rewrite Nat2N.inj_succ, N.pow_succ_r' in Hn.
        apply N.div_lt_upper_bound; lia.
Qed.

Lemma size_nat_pow : forall n, (n < 2 ^ N.of_nat (N.size_nat n))%N.
Proof.
  intro n. destruct n as [|p]; [reflexivity|].
  change (N.size_nat (N.pos p)) with (Pos.size_nat p).
  induction p as [p IH|p IH|]; cbn [Pos.size_nat]; [| |reflexivity];
    rewrite Nat2N.inj_succ, N.pow_succ_r'; lia.
Qed.

Lemma digits_round : forall base n, (2 <= base <= 16)%N -> digits_val base (digits base n) = n.
Proof.
  intros base n Hb. unfold digits. rewrite digits_aux_val; [simpl; unfold digits_val; simpl; lia|exact Hb|].
  apply N.lt_le_trans with (2 ^ N.of_nat (S (N.size_nat n)))%N.
  - rewrite Nat2N.inj_succ, N.pow_succ_r'. pose proof (size_nat_pow n). lia.
  - apply N.pow_le_mono_l. lia.
Qed.
