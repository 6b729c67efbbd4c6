(* Lemmas: what a client reads from any date the serializer writes. *)
From Coq Require Import List Lia ZArith.
From Verif Require Import M_Base M_Time S_KeyValue S_Response S_Agent L_Base L_Response2 L_Time L_Time2.
Import ListNotations.
Open Scope Z_scope.

Lemma tomorrow_fun : forall a b b', Tomorrow a b -> Tomorrow a b' -> b = b'.
Proof.
  intros a b b' H H'. destruct H as [y m d n H1 H2 H3|y m n H1 H2|y]; inversion H' as [? ? ? ? I1 I2 I3|? ? ? I1 I2|?]; subst; try reflexivity;
    repeat match goal with M : MonthLength _ _ _ |- _ => apply ml_unique in M; destruct M as [? M] end; try lia;
    assert (ml (is_leap y) 12 = 31) by (destruct (is_leap y); reflexivity); lia.
Qed.
Lemma tomorrow_inj : forall a a' b, Tomorrow a b -> Tomorrow a' b -> a = a'.
Proof.
  intros a a' b H H'. destruct H as [y m d n H1 H2 H3|y m n H1 H2|y]; inversion H' as [y' m' d' n' I1 I2 I3 E1 E2|y' m' n' I1 I2 E1 E2|y' E1 E2]; subst;
    repeat match goal with M : MonthLength _ _ _ |- _ => apply ml_unique in M; destruct M as [? M] end; try lia.
  - f_equal; lia.
  - assert (m' = m) by lia. subst m'. f_equal. congruence.
  - f_equal; lia.
Qed.
Lemma on_day_go : forall n x, OnDay n x -> x = go_date (epoch + n).
Proof.
  intros n x H. induction H as [|n a b H IH HT|n a b H IH HT].
  - rewrite Z.add_0_r, go_epoch. reflexivity.
  - subst a. apply (tomorrow_fun _ _ _ HT). replace (epoch + (n + 1)) with (epoch + n + 1) by lia. apply go_tomorrow.
  - subst b. apply (tomorrow_inj _ _ _ HT). replace (epoch + (n + 1)) with (epoch + n + 1) by lia. apply go_tomorrow.
Qed.
Lemma on_day_date : forall n a b, OnDay n a -> OnDay n b -> a = b.
Proof. intros n a b Ha Hb. rewrite (on_day_go _ _ Ha), (on_day_go _ _ Hb). reflexivity. Qed.
Lemma dec_fold_none : forall l, fold_left (fun a c => match a, S_Response.dec_digit c with Some n, Some v => Some (10 * n + v)%N | _, _ => None end) l None = None.
Proof. induction l as [|c l IH]; [reflexivity|exact IH]. Qed.
Lemma dec_fold : forall l a n, fold_left (fun a c => match a, S_Response.dec_digit c with Some n, Some v => Some (10 * n + v)%N | _, _ => None end) l (Some a) = Some n ->
  forallb digit l = true /\ (n < (a + 1) * 10 ^ N.of_nat (List.length l))%N.
Proof.
  induction l as [|c l IH]; intros a n H; cbn [fold_left] in H.
  - injection H as <-. split; [reflexivity|]. cbn. lia.
  - destruct (S_Response.dec_digit c) as [v|] eqn:E; [|rewrite dec_fold_none in H; discriminate].
    destruct (IH _ _ H) as [H1 H2]. clear IH H.
    assert (K : digit c = true /\ (v <= 9)%N).
    { destruct c; vm_compute in E; try discriminate E; injection E as <-; split; first [reflexivity|lia]. }
    destruct K as [K1 K2]. cbn [forallb]. rewrite K1, H1. split; [reflexivity|]. cbn [List.length]. rewrite Nat2N.inj_succ, N.pow_succ_r'.
    assert ((10 * a + v + 1) * 10 ^ N.of_nat (List.length l) <= (a + 1) * 10 * 10 ^ N.of_nat (List.length l))%N by (apply N.mul_le_mono_r; lia).
    rewrite <- N.mul_assoc in H. lia.
Qed.
Lemma itoa_digits : forall n, forallb digit (itoa_N n) = true /\ (n < 10 ^ N.of_nat (List.length (itoa_N n)))%N /\ itoa_N n <> [].
Proof.
  intros n. pose proof (itoa_N_dec n) as H. unfold dec_number in H. destruct (itoa_N n) as [|c l] eqn:E; [discriminate H|].
  apply dec_fold in H. destruct H as [H1 H2]. rewrite N.add_0_l, N.mul_1_l in H2. split; [exact H1|]. split; [exact H2|discriminate].
Qed.
(* a year without its sign *)
Definition year_digits (y : Z) : bytes := append_int (Z.abs y) 4.
Lemma year_signed : forall y, append_int y 4 = (if y <? 0 then [x2d] else []) ++ year_digits y.
Proof.
  intros y. unfold year_digits, append_int. rewrite (Z.abs_eq (Z.abs y)) by (apply Z.abs_nonneg). rewrite (proj2 (Z.ltb_ge (Z.abs y) 0) (Z.abs_nonneg y)). cbn [app].
  destruct (y <? 0); reflexivity.
Qed.
Lemma repeat_digits : forall n, forallb digit (repeat x30 n) = true.
Proof. induction n as [|n IH]; [reflexivity|exact IH]. Qed.
Lemma year_whole : forall y, forallb digit (year_digits y) = true /\ year_digits y <> [].
Proof.
  intros y. unfold year_digits, append_int. rewrite (proj2 (Z.ltb_ge (Z.abs y) 0) (Z.abs_nonneg y)). cbn [app].
  destruct (itoa_digits (Z.to_N (Z.abs (Z.abs y)))) as (H1 & _ & H2). split; [rewrite forallb_app, repeat_digits, H1; reflexivity|].
  intros H. apply app_eq_nil in H. destruct H as [_ H]. exact (H2 H).
Qed.
Lemma year_long : forall y, 9999 < Z.abs y -> (5 <= List.length (year_digits y))%nat.
Proof.
  intros y H. unfold year_digits, append_int. rewrite (proj2 (Z.ltb_ge (Z.abs y) 0) (Z.abs_nonneg y)). cbn [app].
  destruct (itoa_digits (Z.to_N (Z.abs (Z.abs y)))) as (_ & H2 & _). rewrite app_length.
  destruct (Nat.le_gt_cases 5 (List.length (itoa_N (Z.to_N (Z.abs (Z.abs y)))))) as [L|L]; [lia|]. exfalso.
  assert (10 ^ N.of_nat (List.length (itoa_N (Z.to_N (Z.abs (Z.abs y))))) <= 10 ^ 4)%N by (apply N.pow_le_mono_r; lia).
  change (10 ^ 4)%N with 10000%N in H0. lia.
Qed.
Lemma year_number : forall y, number 1 2 (year_digits y) = None /\
  number 2 4 (year_digits y) = if Z.abs y <=? 9999 then Some (Z.abs y, []) else None.
Proof.
  intros y. destruct (Z.leb_spec (Z.abs y) 9999) as [L|L].
  - pose proof (num4 (Z.abs y) ltac:(lia)) as H. unfold year_digits. rewrite !(number_alone 4 _ _ _ H). split; reflexivity.
  - pose proof (year_long y L) as H. destruct (year_whole y) as [W _].
    unfold number. rewrite <- (app_nil_r (year_digits y)), (leading_app _ [] W I).
    assert (E : forall lo hi, (hi <= 4)%nat -> Nat.leb lo (List.length (year_digits y)) && Nat.leb (List.length (year_digits y)) hi = false).
    { intros lo hi Hh. rewrite (proj2 (Nat.leb_gt (List.length (year_digits y)) hi)) by lia. destruct (Nat.leb _ _); reflexivity. }
    rewrite !E by lia. split; reflexivity.
Qed.
Lemma any_tokens : forall wd d m y h mi s, (wd < 7)%nat -> 0 <= d < 100 -> 1 <= m <= 12 -> 0 <= h < 100 -> 0 <= mi < 100 -> 0 <= s < 100 ->
  date_tokens (date_text wd d m y h mi s) =
  [nth wd day_names []; append_int d 2; nth (Z.to_nat (m - 1)) month_names []; year_digits y;
   append_int h 2 ++ x3a :: append_int mi 2 ++ x3a :: append_int s 2; B "GMT"].
Proof.
  intros wd d m y h mi s Hwd Hd Hm Hh Hmi Hs.
  apply num2 in Hd, Hh, Hmi, Hs. destruct (year_whole y) as (Y1 & Y2).
  destruct (num_spec _ _ Hd) as (D1 & _), (num_spec _ _ Hh) as (H1 & _), (num_spec _ _ Hmi) as (I1 & _), (num_spec _ _ Hs) as (S1 & _).
  apply digits_whole in D1, H1, I1, S1, Y1.
  assert (Ew : nth wd day_names [] <> [] /\ forallb (fun b => negb (delimiter b)) (nth wd day_names []) = true).
  { destruct wd as [|[|[|[|[|[|[|wd]]]]]]]; [split; [discriminate|vm_compute; reflexivity]..|lia]. }
  assert (Em : nth (Z.to_nat (m - 1)) month_names [] <> [] /\ forallb (fun b => negb (delimiter b)) (nth (Z.to_nat (m - 1)) month_names []) = true).
  { assert (K : (Z.to_nat (m - 1) < 12)%nat) by lia. revert K. generalize (Z.to_nat (m - 1)). intros k K.
    destruct k as [|[|[|[|[|[|[|[|[|[|[|[|k]]]]]]]]]]]]; [split; [discriminate|vm_compute; reflexivity]..|lia]. }
  destruct Ew as [W1 W2], Em as [M1 M2]. unfold date_text. rewrite year_signed.
  change (B ", ") with [x2c; x20]. change (B " ") with [x20]. change (B ":") with [x3a]. change (B " GMT") with (x20 :: B "GMT"). cbn [app].
  rewrite (tokens_word _ x2c _ W1 W2 eq_refl). f_equal. rewrite tokens_skip by reflexivity.
  rewrite (tokens_word (append_int d 2) x20 _ (append_int_nonempty _ _ Hd) D1 eq_refl). f_equal.
  rewrite (tokens_word _ x20 _ M1 M2 eq_refl). f_equal.
  match goal with |- date_tokens (?a ++ x20 :: ?r) = _ => assert (EY : date_tokens (a ++ x20 :: r) = year_digits y :: date_tokens r) end.
  { destruct (y <? 0); cbn [app]; [rewrite tokens_skip by reflexivity|]; apply (tokens_word (year_digits y) x20 _ Y2 Y1 eq_refl). }
  rewrite EY. f_equal.
  replace (append_int h 2 ++ x3a :: append_int mi 2 ++ x3a :: append_int s 2 ++ x20 :: B "GMT")
    with ((append_int h 2 ++ x3a :: append_int mi 2 ++ x3a :: append_int s 2) ++ x20 :: B "GMT").
  2: { rewrite <- app_assoc. cbn [app]. rewrite <- app_assoc. reflexivity. }
  rewrite tokens_word.
  - f_equal.
  - destruct (append_int h 2) eqn:E; [destruct (append_int_nonempty _ _ Hh E)|discriminate].
  - rewrite forallb_app. cbn [forallb]. rewrite forallb_app. cbn [forallb]. rewrite H1, I1, S1. reflexivity.
  - reflexivity.
Qed.
Lemma no_month : forall y, month_token (year_digits y) = None.
Proof.
  intros y. destruct (year_whole y) as [W N]. destruct (year_digits y) as [|a r]; [destruct (N eq_refl)|]. clear N.
  cbn [forallb] in W. apply andb_prop in W. destruct W as [Ha _]. unfold month_token.
  assert (K : forall b r, In b (map B ["jan"; "feb"; "mar"; "apr"; "may"; "jun"; "jul"; "aug"; "sep"; "oct"; "nov"; "dec"]%string) -> same_keyb (a :: r) b = false).
  { intros b r' Hb. cbn [map In] in Hb.
    repeat (destruct Hb as [<-|Hb]; [destruct a; vm_compute in Ha; first [discriminate Ha|cbn; reflexivity]|]). destruct Hb. }
  unfold months. cbn [map month_from firstn]. rewrite !K by (cbn [map In]; tauto). reflexivity.
Qed.
Lemma any_read : forall wd d m y h mi s, (wd < 7)%nat -> 0 <= d < 100 -> 1 <= m <= 12 -> 0 <= h < 100 -> 0 <= mi < 100 -> 0 <= s < 100 ->
  fold_left take_token (date_tokens (date_text wd d m y h mi s)) (Found None None None None) =
  Found (Some (h, mi, s)) (Some d) (Some m) (if Z.abs y <=? 9999 then Some (Z.abs y) else None).
Proof.
  intros wd d m y h mi s Hwd Hd Hm Hh Hmi Hs. rewrite any_tokens by assumption.
  apply num2 in Hd, Hh, Hmi, Hs. cbn [fold_left].
  assert (T1 : take_token (Found None None None None) (nth wd day_names []) = Found None None None None).
  { destruct wd as [|[|[|[|[|[|[|wd]]]]]]]; [vm_compute; reflexivity..|lia]. }
  rewrite T1. clear T1.
  assert (T2 : take_token (Found None None None None) (append_int d 2) = Found None (Some d) None None).
  { unfold take_token, time_token. rewrite !(number_alone 2 1 2 d Hd). cbn [fd_time fd_day fd_month fd_year Nat.leb andb]. reflexivity. }
  rewrite T2. clear T2.
  assert (T3 : take_token (Found None (Some d) None None) (nth (Z.to_nat (m - 1)) month_names []) = Found None (Some d) (Some m) None).
  { unfold take_token. cbn [fd_time fd_day fd_month fd_year].
    assert (K : exists k, m = Z.of_nat k + 1 /\ (k < 12)%nat) by (exists (Z.to_nat (m - 1)); lia). destruct K as (k & -> & K).
    replace (Z.to_nat (Z.of_nat k + 1 - 1)) with k by lia.
    destruct k as [|[|[|[|[|[|[|[|[|[|[|[|k]]]]]]]]]]]]; [vm_compute; reflexivity..|lia]. }
  rewrite T3. clear T3. destruct (year_number y) as [Y1 Y2].
  assert (T4 : take_token (Found None (Some d) (Some m) None) (year_digits y) = Found None (Some d) (Some m) (if Z.abs y <=? 9999 then Some (Z.abs y) else None)).
  { unfold take_token, time_token. rewrite Y1, Y2. cbn [fd_time fd_day fd_month fd_year]. destruct (Z.abs y <=? 9999); reflexivity. }
  rewrite T4. clear T4.
  assert (T5 : time_token (append_int h 2 ++ x3a :: append_int mi 2 ++ x3a :: append_int s 2) = Some (h, mi, s)).
  { unfold time_token. rewrite (number_of 2 1 2 h _ Hh) by reflexivity. cbn [Nat.leb andb]. change (Byte.eqb x3a x3a) with true. cbn iota.
    rewrite (number_of 2 1 2 mi _ Hmi) by reflexivity. cbn [Nat.leb andb]. change (Byte.eqb x3a x3a) with true. cbn iota.
    rewrite (number_alone 2 1 2 s Hs). reflexivity. }
  unfold take_token at 2. cbn [fd_time fd_day fd_month fd_year]. rewrite T5. unfold take_token. cbn [fd_time fd_day fd_month fd_year].
  change (time_token (B "GMT")) with (@None (Z * Z * Z)). change (number 2 4 (B "GMT")) with (@None (Z * bytes)).
  destruct (Z.abs y <=? 9999); reflexivity.
Qed.
Theorem expiry_any : forall t y m d h mi s n, in_range t -> OnDay n (Date y m d) -> 0 <= h <= 23 -> 0 <= mi <= 59 -> 0 <= s <= 59 ->
  t_unix t = 86400 * n + 3600 * h + 60 * mi + s ->
  forall z, NamesInstant (rfc1123 t) z <->
    exists y' n', year_read y = Some y' /\ OnDay n' (Date y' m d) /\ z = 86400 * n' + 3600 * h + 60 * mi + s.
Proof.
  intros t y m d h mi s n HR HO Hh Hmi Hs Ht z.
  destruct (rfc1123_text t HR) as (wd & d0 & m0 & y0 & h0 & mi0 & s0 & E & H1 & H2 & H3 & H4 & H5 & H6 & (n0 & H7 & H8) & _ & _).
  assert (En : n0 = n) by lia. assert (Eh : h0 = h) by lia. assert (Emi : mi0 = mi) by lia. assert (Es : s0 = s) by lia. subst n0 h0 mi0 s0.
  assert (ED : Date y0 m0 d0 = Date y m d) by (apply (on_day_date n); assumption). injection ED as -> -> ->.
  rewrite E. pose proof (any_read wd d m y h mi s ltac:(lia) ltac:(lia) ltac:(lia) ltac:(lia) ltac:(lia) ltac:(lia)) as HT. unfold year_read. split.
  - intros N. destruct N as [h' mi' s' d' m' y' n' N1 N2 N3 N4 N5 N6]. rewrite HT in N1. destruct (Z.abs y <=? 9999) eqn:EY; [|discriminate N1].
    injection N1 as <- <- <- <- <- <-. exists (full_year (Z.abs y)), n'. cbn [andb]. rewrite (proj2 (Z.leb_le 1601 _) N2). auto.
  - intros (y' & n' & Hy & Hn & ->). destruct (Z.abs y <=? 9999) eqn:EY; [|discriminate Hy]. cbn [andb] in Hy.
    destruct (Z.leb_spec 1601 (full_year (Z.abs y))) as [L|L]; [|discriminate Hy]. injection Hy as <-.
    apply (Names_instant _ h mi s d m (Z.abs y) n'); [exact HT|lia..|exact Hn].
Qed.

Theorem expiry_all : forall t u y m d h mi s n, -9223372036854775808 <= t_unix t < 9223372036854775808 ->
  u = (if t_unix t <? -9223372028715321600 then t_unix t + 18446744073709551616 else t_unix t) ->
  OnDay n (Date y m d) -> 0 <= h <= 23 -> 0 <= mi <= 59 -> 0 <= s <= 59 -> u = 86400 * n + 3600 * h + 60 * mi + s ->
  rfc1123 t = rfc1123 (GTime u 0) /\
  forall z, NamesInstant (rfc1123 t) z <->
    exists y' n', year_read y = Some y' /\ OnDay n' (Date y' m d) /\ z = 86400 * n' + 3600 * h + 60 * mi + s.
Proof.
  intros t u y m d h mi s n Ht Eu HO Hh Hm Hs E.
  assert (A : t_abs t = t_abs (GTime u 0)).
  { unfold t_abs. cbn [t_unix]. rewrite Eu. destruct (_ <? _); [|reflexivity].
    replace (t_unix t + 18446744073709551616 + to_abs) with (t_unix t + to_abs + 1 * 18446744073709551616) by ring. symmetry. apply Z.mod_add. discriminate. }
  assert (R : rfc1123 t = rfc1123 (GTime u 0)) by (unfold rfc1123; rewrite A; reflexivity).
  split; [exact R|]. rewrite R. apply (expiry_any (GTime u 0) y m d h mi s n); try assumption.
  unfold in_range, to_abs. cbn [t_unix]. rewrite Eu. destruct (t_unix t <? -9223372028715321600) eqn:L; [apply Z.ltb_lt in L|apply Z.ltb_ge in L]; lia.
Qed.
