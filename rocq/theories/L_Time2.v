(* Lemmas: what a client reads from a date the serializer wrote. *)
From Coq Require Import List Lia ZArith.
From Verif Require Import M_Base M_Time S_KeyValue S_Agent L_Base L_Time.
Import ListNotations.
Open Scope Z_scope.

(* ---- tokens ---- *)
Lemma tokens_skip : forall c s, delimiter c = true -> date_tokens (c :: s) = date_tokens s.
Proof. intros c s H. cbn [date_tokens]. rewrite H. reflexivity. Qed.
Lemma tokens_word : forall w c s, w <> [] -> forallb (fun b => negb (delimiter b)) w = true -> delimiter c = true ->
  date_tokens (w ++ c :: s) = w :: date_tokens s.
Proof.
  induction w as [|a w IH]; intros c s Hn Hw Hc; [destruct (Hn eq_refl)|]. cbn [forallb] in Hw. apply andb_prop in Hw. destruct Hw as [Ha Hw].
  apply Bool.negb_true_iff in Ha. destruct w as [|b w].
  - cbn [app date_tokens]. rewrite Ha, Hc. reflexivity.
  - specialize (IH c s ltac:(discriminate) Hw Hc). cbn [forallb] in Hw. apply andb_prop in Hw. destruct Hw as [Hb _]. apply Bool.negb_true_iff in Hb.
    cbn [app] in *. cbn [date_tokens]. cbn [date_tokens] in IH. rewrite Hb in IH. rewrite Ha, Hb, IH. reflexivity.
Qed.
Lemma tokens_last : forall w, w <> [] -> forallb (fun b => negb (delimiter b)) w = true -> date_tokens w = [w].
Proof.
  induction w as [|a w IH]; intros Hn Hw; [destruct (Hn eq_refl)|]. cbn [forallb] in Hw. apply andb_prop in Hw. destruct Hw as [Ha Hw].
  apply Bool.negb_true_iff in Ha. destruct w as [|b w].
  - cbn [date_tokens]. rewrite Ha. reflexivity.
  - specialize (IH ltac:(discriminate) Hw). cbn [forallb] in Hw. apply andb_prop in Hw. destruct Hw as [Hb _]. apply Bool.negb_true_iff in Hb.
    cbn [date_tokens]. cbn [date_tokens] in IH. rewrite Hb in IH. rewrite Ha, Hb, IH. reflexivity.
Qed.
Lemma leading_app : forall ds r, forallb digit ds = true -> match r with c :: _ => digit c = false | [] => True end -> leading_digits (ds ++ r) = (ds, r).
Proof.
  induction ds as [|d ds IH]; intros r H Hr.
  - destruct r as [|c r]; [reflexivity|]. cbn [app leading_digits]. rewrite Hr. reflexivity.
  - cbn [forallb] in H. apply andb_prop in H. destruct H as [H1 H2]. cbn [app leading_digits]. rewrite H1, (IH r H2 Hr). reflexivity.
Qed.
Lemma digits_whole : forall ds, forallb digit ds = true -> forallb (fun b => negb (delimiter b)) ds = true.
Proof.
  intros ds H. rewrite forallb_forall in *. intros b Hb. specialize (H b Hb). clear Hb. destruct b; vm_compute in H; first [discriminate H|reflexivity].
Qed.
(* ---- numbers ---- *)
Definition num_ok (w : nat) (x : Z) : bool :=
  let s := append_int x w in forallb digit s && Nat.eqb (List.length s) w && (S_Agent.value_of s =? x).
Lemma num2 : forall x, 0 <= x < 100 -> num_ok 2 x = true.
Proof. apply (below _ 100). vm_compute. reflexivity. Qed.
Lemma num4 : forall x, 0 <= x < 10000 -> num_ok 4 x = true.
Proof. apply (below _ 10000). vm_compute. reflexivity. Qed.
Lemma num_spec : forall w x, num_ok w x = true -> forallb digit (append_int x w) = true /\ List.length (append_int x w) = w /\ S_Agent.value_of (append_int x w) = x.
Proof. intros w x H. unfold num_ok in H. apply andb_prop in H. destruct H as [H H3]. apply andb_prop in H. destruct H as [H1 H2]. apply Nat.eqb_eq in H2. apply Z.eqb_eq in H3. auto. Qed.
Lemma number_of : forall w lo hi x r, num_ok w x = true -> match r with c :: _ => digit c = false | [] => True end ->
  number lo hi (append_int x w ++ r) = if Nat.leb lo w && Nat.leb w hi then Some (x, r) else None.
Proof. intros w lo hi x r H Hr. destruct (num_spec w x H) as (H1 & H2 & H3). unfold number. rewrite (leading_app _ _ H1 Hr), H2, H3. reflexivity. Qed.
Lemma number_alone : forall w lo hi x, num_ok w x = true -> number lo hi (append_int x w) = if Nat.leb lo w && Nat.leb w hi then Some (x, []) else None.
Proof. intros w lo hi x H. rewrite <- (app_nil_r (append_int x w)). apply number_of; [exact H|exact I]. Qed.
Lemma append_int_nonempty : forall w x, num_ok (S w) x = true -> append_int x (S w) <> [].
Proof. intros w x H E. destruct (num_spec _ x H) as (_ & L & _). rewrite E in L. discriminate. Qed.

(* ---- the text ---- *)
Definition date_text (wd : nat) (d m y h mi s : Z) : bytes :=
  nth wd day_names [] ++ B ", " ++ append_int d 2 ++ B " " ++ nth (Z.to_nat (m - 1)) month_names [] ++ B " " ++ append_int y 4 ++ B " " ++
  append_int h 2 ++ B ":" ++ append_int mi 2 ++ B ":" ++ append_int s 2 ++ B " GMT".
Lemma text_tokens : forall wd d m y h mi s, (wd < 7)%nat -> 0 <= d < 100 -> 1 <= m <= 12 -> 0 <= y < 10000 -> 0 <= h < 100 -> 0 <= mi < 100 -> 0 <= s < 100 ->
  date_tokens (date_text wd d m y h mi s) =
  [nth wd day_names []; append_int d 2; nth (Z.to_nat (m - 1)) month_names []; append_int y 4;
   append_int h 2 ++ x3a :: append_int mi 2 ++ x3a :: append_int s 2; B "GMT"].
Proof.
  intros wd d m y h mi s Hwd Hd Hm Hy Hh Hmi Hs.
  apply num2 in Hd, Hh, Hmi, Hs. apply num4 in Hy.
  destruct (num_spec _ _ Hd) as (D1 & _), (num_spec _ _ Hh) as (H1 & _), (num_spec _ _ Hmi) as (I1 & _), (num_spec _ _ Hs) as (S1 & _), (num_spec _ _ Hy) as (Y1 & _).
  apply digits_whole in D1, H1, I1, S1, Y1.
  assert (Ew : nth wd day_names [] <> [] /\ forallb (fun b => negb (delimiter b)) (nth wd day_names []) = true).
  { destruct wd as [|[|[|[|[|[|[|wd]]]]]]]; [split; [discriminate|vm_compute; reflexivity]..|lia]. }
  assert (Em : nth (Z.to_nat (m - 1)) month_names [] <> [] /\ forallb (fun b => negb (delimiter b)) (nth (Z.to_nat (m - 1)) month_names []) = true).
  { assert (K : (Z.to_nat (m - 1) < 12)%nat) by lia. revert K. generalize (Z.to_nat (m - 1)). intros k K.
    destruct k as [|[|[|[|[|[|[|[|[|[|[|[|k]]]]]]]]]]]]; [split; [discriminate|vm_compute; reflexivity]..|lia]. }
  destruct Ew as [W1 W2], Em as [M1 M2]. unfold date_text.
  change (B ", ") with [x2c; x20]. change (B " ") with [x20]. change (B ":") with [x3a]. change (B " GMT") with (x20 :: B "GMT"). cbn [app].
  rewrite (tokens_word _ x2c _ W1 W2 eq_refl). f_equal. rewrite tokens_skip by reflexivity.
  rewrite (tokens_word (append_int d 2) x20 _ (append_int_nonempty _ _ Hd) D1 eq_refl). f_equal.
  rewrite (tokens_word _ x20 _ M1 M2 eq_refl). f_equal.
  rewrite (tokens_word (append_int y 4) x20 _ (append_int_nonempty _ _ Hy) Y1 eq_refl). f_equal.
  replace (append_int h 2 ++ x3a :: append_int mi 2 ++ x3a :: append_int s 2 ++ x20 :: B "GMT")
    with ((append_int h 2 ++ x3a :: append_int mi 2 ++ x3a :: append_int s 2) ++ x20 :: B "GMT").
  2: { rewrite <- app_assoc. cbn [app]. rewrite <- app_assoc. reflexivity. }
  rewrite tokens_word.
  - f_equal.
  - destruct (append_int h 2) eqn:E; [destruct (append_int_nonempty _ _ Hh E)|discriminate].
  - rewrite forallb_app. cbn [forallb]. rewrite forallb_app. cbn [forallb]. rewrite H1, I1, S1. reflexivity.
  - reflexivity.
Qed.
Lemma text_read : forall wd d m y h mi s, (wd < 7)%nat -> 0 <= d < 100 -> 1 <= m <= 12 -> 0 <= y < 10000 -> 0 <= h < 100 -> 0 <= mi < 100 -> 0 <= s < 100 ->
  fold_left take_token (date_tokens (date_text wd d m y h mi s)) (Found None None None None) = Found (Some (h, mi, s)) (Some d) (Some m) (Some y).
Proof.
  intros wd d m y h mi s Hwd Hd Hm Hy Hh Hmi Hs. rewrite text_tokens by assumption.
  apply num2 in Hd, Hh, Hmi, Hs. apply num4 in Hy. cbn [fold_left].
  assert (T1 : take_token (Found None None None None) (nth wd day_names []) = Found None None None None).
  { destruct wd as [|[|[|[|[|[|[|wd]]]]]]]; [vm_compute; reflexivity..|lia]. }
  rewrite T1. clear T1.
  assert (T2 : take_token (Found None None None None) (append_int d 2) = Found None (Some d) None None).
  { unfold take_token, time_token. rewrite !(number_alone 2 1 2 d Hd). cbn [fd_time fd_day fd_month fd_year Nat.leb andb]. reflexivity. }
  rewrite T2. clear T2.
  assert (T3 : take_token (Found None (Some d) None None) (nth (Z.to_nat (m - 1)) month_names []) = Found None (Some d) (Some m) None).
  { unfold take_token. cbn [fd_time fd_day fd_month fd_year].
    assert (K : exists k, m = Z.of_nat k + 1 /\ (k < 12)%nat) by (exists (Z.to_nat (m - 1)); lia). destruct K as (k & -> & K).
    replace (Z.to_nat (Z.of_nat k + 1 - 1)) with k by lia.
    destruct k as [|[|[|[|[|[|[|[|[|[|[|[|k]]]]]]]]]]]]; [vm_compute; reflexivity..|lia]. }
  rewrite T3. clear T3.
  assert (T4 : take_token (Found None (Some d) (Some m) None) (append_int y 4) = Found None (Some d) (Some m) (Some y)).
  { unfold take_token, time_token. rewrite (number_alone 4 1 2 y Hy), (number_alone 4 2 4 y Hy). cbn [fd_time fd_day fd_month fd_year Nat.leb andb]. reflexivity. }
  rewrite T4. clear T4.
  assert (T5 : time_token (append_int h 2 ++ x3a :: append_int mi 2 ++ x3a :: append_int s 2) = Some (h, mi, s)).
  { unfold time_token. rewrite (number_of 2 1 2 h _ Hh) by reflexivity. cbn [Nat.leb andb]. change (Byte.eqb x3a x3a) with true. cbn iota.
    rewrite (number_of 2 1 2 mi _ Hmi) by reflexivity. cbn [Nat.leb andb]. change (Byte.eqb x3a x3a) with true. cbn iota.
    rewrite (number_alone 2 1 2 s Hs). reflexivity. }
  unfold take_token at 2. cbn [fd_time fd_day fd_month fd_year]. rewrite T5. unfold take_token. cbn [fd_time fd_day fd_month fd_year]. reflexivity.
Qed.
(* ---- the instant ---- *)
Definition in_range (t : gtime) : Prop := - to_abs <= t_unix t < 18446744073709551616 - to_abs.
Lemma abs_in_range : forall t, in_range t -> t_abs t = t_unix t + to_abs.
Proof. intros t H. unfold t_abs, in_range, to_abs in *. apply Z.mod_small. lia. Qed.
Lemma rfc1123_text : forall t, in_range t -> exists wd d m y h mi s, rfc1123 t = date_text wd d m y h mi s /\ (wd < 7)%nat /\ 1 <= d <= 31 /\ 1 <= m <= 12 /\
  0 <= h <= 23 /\ 0 <= mi <= 59 /\ 0 <= s <= 59 /\ (exists n, OnDay n (Date y m d) /\ t_unix t = 86400 * n + 3600 * h + 60 * mi + s) /\
  (-11644473600 <= t_unix t -> 1601 <= y) /\ (t_unix t < 253402300800 -> y <= 9999).
Proof.
  intros t HR. unfold rfc1123. rewrite (abs_in_range t HR). set (abs := t_unix t + to_abs).
  destruct (abs_year_ok (abs / 86400)) as (a & yd & E & D & R). pose proof (go_on_day (abs / 86400)) as HO. unfold go_date in HO. rewrite E in *.
  pose proof (md_all_ok (is_leap (a + zero_year)) yd R) as HM. unfold md_ok in HM. destruct (month_day (is_leap (a + zero_year)) yd) as [m d].
  rewrite !Bool.andb_true_iff, !Z.leb_le in HM. destruct HM as ((((M1 & M2) & M3) & M4) & _).
  assert (M5 : ml (is_leap (a + zero_year)) m <= 31).
  { pose proof (ml_length (a + zero_year) m ltac:(lia)) as ML. inversion ML; lia. }
  exists (Z.to_nat (abs_weekday abs)), d, m, (a + zero_year), (abs mod 86400 / 3600), (abs mod 86400 mod 3600 / 60), (abs mod 86400 mod 60).
  split; [reflexivity|]. split; [unfold abs_weekday; assert (0 <= (abs + 86400) mod 604800 / 86400 < 7) by (divs; lia); lia|].
  repeat (split; [divs; lia|]). split; [|split].
  - exists (abs / 86400 - epoch). split; [exact HO|]. assert (EE : to_abs = 86400 * epoch) by (vm_compute; reflexivity).
    unfold abs. rewrite EE. clearbody abs. clear. set (n := t_unix t). generalize epoch. intros e. divs. lia.
  - intros Hy. destruct (Z.lt_ge_cases (a + zero_year) 1601) as [L|L]; [|exact L]. exfalso.
    pose proof (dby_mono (a + 1) (1601 - zero_year) ltac:(lia)) as DM. rewrite year_len_next in DM.
    replace (dby (1601 - zero_year)) with (epoch - 134774) in DM by (vm_compute; reflexivity).
    assert (EE : to_abs = 86400 * epoch) by (vm_compute; reflexivity).
    assert (abs / 86400 >= epoch - 134774) by (unfold abs; rewrite EE; generalize epoch; intros e; divs; lia). lia.
  - intros Hy. destruct (Z.lt_ge_cases 9999 (a + zero_year)) as [L|L]; [|exact L]. exfalso.
    pose proof (dby_mono (10000 - zero_year) a ltac:(lia)) as DM.
    replace (dby (10000 - zero_year)) with (epoch + 2932897) in DM by (vm_compute; reflexivity).
    assert (EE : to_abs = 86400 * epoch) by (vm_compute; reflexivity).
    assert (abs / 86400 < epoch + 2932897) by (unfold abs; rewrite EE; generalize epoch; intros e; divs; lia). lia.
Qed.
Theorem expiry_read : forall t, -11644473600 <= t_unix t < 253402300800 -> forall z, NamesInstant (rfc1123 t) z <-> z = t_unix t.
Proof.
  intros t Ht z. destruct (rfc1123_text t) as (wd & d & m & y & h & mi & s & E & H1 & H2 & H3 & H4 & H5 & H6 & (n & H7 & H8) & H9 & H10); [unfold in_range, to_abs; lia|].
  specialize (H9 ltac:(lia)). specialize (H10 ltac:(lia)). rewrite E, H8.
  pose proof (text_read wd d m y h mi s ltac:(lia) ltac:(lia) ltac:(lia) ltac:(lia) ltac:(lia) ltac:(lia) ltac:(lia)) as HT.
  assert (HF : full_year y = y).
  { unfold full_year. destruct (Z.leb_spec 70 y), (Z.leb_spec y 99), (Z.leb_spec 0 y), (Z.leb_spec y 69); cbn [andb]; lia. }
  split.
  - intros N. destruct N as [h' m' x' d' mo' y' n' N1 N2 N3 N4 N5 N6]. rewrite HT in N1. injection N1 as <- <- <- <- <- <-. rewrite HF in N6.
    rewrite (on_day_number _ _ N6), (on_day_number _ _ H7). reflexivity.
  - intros ->. econstructor; [exact HT|lia..|rewrite HF; exact H7].
Qed.
