(* Lemmas: the text of a date is the one RFC 7231 asks for. *)
From Coq Require Import List Lia ZArith.
From Verif Require Import M_Base M_Time S_Agent L_Base L_Time L_Time2.
Import ListNotations.
Open Scope Z_scope.

Lemma two_text : forall x, 0 <= x < 100 -> append_int x 2 = two x.
Proof.
  intros x H. apply beqb_eq. revert x H. apply (below (fun x => beqb (append_int x 2) (two x)) 100). vm_compute. reflexivity.
Qed.
Lemma four_text : forall x, 0 <= x < 10000 -> append_int x 4 = four x.
Proof.
  intros x H. apply beqb_eq. revert x H. apply (below (fun x => beqb (append_int x 4) (four x)) (Z.to_nat 10000)). vm_compute. reflexivity.
Qed.
Lemma month_same : forall m, nth (Z.to_nat (m - 1)) month_names [] = month_name m.
Proof. reflexivity. Qed.
Lemma weekday_same : forall n, nth (Z.to_nat ((n + 4) mod 7)) day_names [] = weekday_name n.
Proof.
  intros n. unfold weekday_name. assert (E : (n + 4) mod 7 = (n mod 7 + 4) mod 7) by (rewrite Z.add_mod_idemp_l by lia; reflexivity). rewrite E.
  assert (R : 0 <= n mod 7 < 7) by (apply Z.mod_pos_bound; lia). generalize dependent (n mod 7). intros r _ R.
  assert (r = 0 \/ r = 1 \/ r = 2 \/ r = 3 \/ r = 4 \/ r = 5 \/ r = 6) as [->|[->|[->|[->|[->|[->| ->]]]]]] by lia; reflexivity.
Qed.
Lemma weekday_day : forall t, in_range t -> abs_weekday (t_abs t) = (t_unix t / 86400 + 4) mod 7.
Proof.
  intros t H. rewrite (abs_in_range t H). unfold abs_weekday, to_abs. generalize (t_unix t). intros u.
  assert (E : (u + 9223372028715321600 + 86400) mod 604800 / 86400 = ((u + 9223372028715321600 + 86400) / 86400) mod 7) by (divs; lia).
  rewrite E. replace (u + 9223372028715321600 + 86400) with (u + 106751991073094 * 86400 + 1 * 86400) by lia.
  rewrite !Z.div_add by lia. divs. lia.
Qed.
Theorem imf_text : forall t, -62167219200 <= t_unix t < 253402300800 -> ImfDate (t_unix t) (rfc1123 t).
Proof.
  intros t Ht. assert (HR : in_range t) by (unfold in_range, to_abs; lia). pose proof (weekday_day t HR) as HW.
  unfold rfc1123. rewrite HW, weekday_same. rewrite (abs_in_range t HR) in *. set (abs := t_unix t + to_abs) in *.
  destruct (abs_year_ok (abs / 86400)) as (a & yd & E & D & R). pose proof (go_on_day (abs / 86400)) as HO. unfold go_date in HO. rewrite E in *.
  pose proof (md_all_ok (is_leap (a + zero_year)) yd R) as HM. unfold md_ok in HM. destruct (month_day (is_leap (a + zero_year)) yd) as [m d].
  rewrite !Bool.andb_true_iff, !Z.leb_le in HM. destruct HM as ((((M1 & M2) & M3) & M4) & _).
  assert (M5 : ml (is_leap (a + zero_year)) m <= 31) by (pose proof (ml_length (a + zero_year) m ltac:(lia)) as ML; inversion ML; lia).
  assert (EE : to_abs = 86400 * epoch) by (vm_compute; reflexivity).
  assert (EN : abs / 86400 - epoch = t_unix t / 86400) by (unfold abs; rewrite EE; generalize epoch; intros e; divs; lia).
  assert (Y : 0 <= a + zero_year <= 9999).
  { split.
    - destruct (Z.lt_ge_cases (a + zero_year) 0) as [L|L]; [|lia]. exfalso.
      pose proof (dby_mono (a + 1) (0 - zero_year) ltac:(lia)) as DM. rewrite year_len_next in DM.
      replace (dby (0 - zero_year)) with (epoch - 719528) in DM by (vm_compute; reflexivity).
      assert (t_unix t / 86400 >= - 719528) by (divs; lia). lia.
    - destruct (Z.lt_ge_cases 9999 (a + zero_year)) as [L|L]; [|lia]. exfalso.
      pose proof (dby_mono (10000 - zero_year) a ltac:(lia)) as DM.
      replace (dby (10000 - zero_year)) with (epoch + 2932897) in DM by (vm_compute; reflexivity).
      assert (t_unix t / 86400 < 2932897) by (divs; lia). lia. }
  rewrite EN in HO. rewrite month_same, (four_text (a + zero_year)), (two_text d) by lia.
  assert (SE : abs mod 86400 = t_unix t mod 86400).
  { unfold abs. rewrite EE, Z.add_comm, Z.add_mod by lia. rewrite (Z.mul_comm 86400), Z.mod_mul by lia. cbn [Z.add]. rewrite Z.mod_mod by lia. reflexivity. }
  rewrite SE. rewrite !two_text by (divs; lia). constructor; try assumption; divs; lia.
Qed.
