(* Lemmas for C90. *)
From Verif Require Import M_Base M_Status M_Method M_Proto M_KeyValue M_Query M_Request M_Parser M_Words S_Words L_Base L_Head.

Lemma lor_shift : forall h x k, (x < 2 ^ k)%N -> N.lor (N.shiftl h k) x = (h * 2 ^ k + x)%N.
Proof.
  intros h x k H.
  assert (L : N.land (N.shiftl h k) x = 0%N).
  { apply N.bits_inj. intro i. rewrite N.land_spec, N.bits_0. destruct (N.lt_ge_cases i k) as [C|C].
    - rewrite N.shiftl_spec_low by exact C. reflexivity.
    - rewrite <- (N.mod_small x (2 ^ k)) by exact H. rewrite N.mod_pow2_bits_high by exact C. apply Bool.andb_false_r. }
  rewrite <- (N.lxor_lor _ _ L), <- (N.add_nocarry_lxor _ _ L), N.shiftl_mul_pow2. reflexivity.
Qed.

Lemma u64_sum : forall a b c d e f g h, encode_u64 a b c d e f g h =
  (bN h * 2 ^ 56 + (bN g * 2 ^ 48 + (bN f * 2 ^ 40 + (bN e * 2 ^ 32 + (bN d * 2 ^ 24 + (bN c * 2 ^ 16 + (bN b * 2 ^ 8 + bN a)))))))%N.
Proof.
  intros. unfold encode_u64, word. rewrite <- !N.lor_assoc.
  pose proof (bN_lt a). pose proof (bN_lt b). pose proof (bN_lt c). pose proof (bN_lt d).
  pose proof (bN_lt e). pose proof (bN_lt f). pose proof (bN_lt g). pose proof (bN_lt h).
  rewrite (lor_shift (bN b) _ 8) by (cbn; lia). rewrite (lor_shift (bN c) _ 16) by (cbn; lia).
  rewrite (lor_shift (bN d) _ 24) by (cbn; lia). rewrite (lor_shift (bN e) _ 32) by (cbn; lia).
  rewrite (lor_shift (bN f) _ 40) by (cbn; lia). rewrite (lor_shift (bN g) _ 48) by (cbn; lia).
  rewrite (lor_shift (bN h) _ 56) by (cbn; lia). reflexivity.
Qed.
Lemma u32_sum : forall a b c d, encode_u32 a b c d = (bN d * 2 ^ 24 + (bN c * 2 ^ 16 + (bN b * 2 ^ 8 + bN a)))%N.
Proof.
  intros. unfold encode_u32, word. rewrite <- !N.lor_assoc.
  pose proof (bN_lt a). pose proof (bN_lt b). pose proof (bN_lt c). pose proof (bN_lt d).
  rewrite (lor_shift (bN b) _ 8) by (cbn; lia). rewrite (lor_shift (bN c) _ 16) by (cbn; lia).
  rewrite (lor_shift (bN d) _ 24) by (cbn; lia). reflexivity.
Qed.
Lemma u16_sum : forall a b, encode_u16 a b = (bN b * 2 ^ 8 + bN a)%N.
Proof. intros. unfold encode_u16, word. pose proof (bN_lt a). apply (lor_shift (bN b) _ 8). cbn; lia. Qed.

Lemma digit : forall x y p q, (x < 256 -> p < 256 -> y * 256 + x = q * 256 + p -> x = p /\ y = q)%N.
Proof. intros. lia. Qed.
Lemma u64_digits : forall a b c d e f g h, encode_u64 a b c d e f g h =
  (((((((bN h * 256 + bN g) * 256 + bN f) * 256 + bN e) * 256 + bN d) * 256 + bN c) * 256 + bN b) * 256 + bN a)%N.
Proof.
  intros. rewrite u64_sum.
  change (2 ^ 56)%N with (256 * (256 * (256 * (256 * (256 * (256 * 256))))))%N.
  change (2 ^ 48)%N with (256 * (256 * (256 * (256 * (256 * 256)))))%N.
  change (2 ^ 40)%N with (256 * (256 * (256 * (256 * 256))))%N.
  change (2 ^ 32)%N with (256 * (256 * (256 * 256)))%N.
  change (2 ^ 24)%N with (256 * (256 * 256))%N.
  change (2 ^ 16)%N with (256 * 256)%N. change (2 ^ 8)%N with 256%N. ring.
Qed.

Lemma u64_inj : forall a b c d e f g h a' b' c' d' e' f' g' h',
  encode_u64 a b c d e f g h = encode_u64 a' b' c' d' e' f' g' h' ->
  [a; b; c; d; e; f; g; h] = [a'; b'; c'; d'; e'; f'; g'; h'].
Proof.
  intros *. rewrite !u64_digits. intro E.
  apply digit in E; try apply bN_lt. destruct E as [E1 E]. apply digit in E; try apply bN_lt. destruct E as [E2 E].
  apply digit in E; try apply bN_lt. destruct E as [E3 E]. apply digit in E; try apply bN_lt. destruct E as [E4 E].
  apply digit in E; try apply bN_lt. destruct E as [E5 E]. apply digit in E; try apply bN_lt. destruct E as [E6 E].
  apply digit in E; try apply bN_lt. destruct E as [E7 E8].
  apply bN_inj in E1, E2, E3, E4, E5, E6, E7, E8. subst. reflexivity.
Qed.
Lemma u32_inj : forall a b c d a' b' c' d', encode_u32 a b c d = encode_u32 a' b' c' d' -> [a; b; c; d] = [a'; b'; c'; d'].
Proof.
  intros *. rewrite !u32_sum.
  pose proof (bN_lt a). pose proof (bN_lt b). pose proof (bN_lt c). pose proof (bN_lt d).
  pose proof (bN_lt a'). pose proof (bN_lt b'). pose proof (bN_lt c'). pose proof (bN_lt d').
  intro E.
  assert (bN a = bN a' /\ bN b = bN b' /\ bN c = bN c' /\ bN d = bN d') as (E1 & E2 & E3 & E4) by (cbn in E; lia).
  apply bN_inj in E1, E2, E3, E4. subst. reflexivity.
Qed.
Lemma u16_inj : forall a b a' b', encode_u16 a b = encode_u16 a' b' -> [a; b] = [a'; b'].
Proof.
  intros *. rewrite !u16_sum. pose proof (bN_lt a). pose proof (bN_lt b). pose proof (bN_lt a'). pose proof (bN_lt b').
  intro E. assert (bN a = bN a' /\ bN b = bN b') as (E1 & E2) by (cbn in E; lia). apply bN_inj in E1, E2. subst. reflexivity.
Qed.

Lemma u64_eqb : forall a b c d e f g h a' b' c' d' e' f' g' h',
  (encode_u64 a b c d e f g h =? encode_u64 a' b' c' d' e' f' g' h')%N = beqb [a'; b'; c'; d'; e'; f'; g'; h'] [a; b; c; d; e; f; g; h].
Proof.
  intros. apply Bool.eq_iff_eq_true. rewrite N.eqb_eq, beqb_eq. split; intro E; [symmetry; apply u64_inj; exact E|injection E as -> -> -> -> -> -> -> ->; reflexivity].
Qed.
Lemma u32_eqb : forall a b c d a' b' c' d',
  (encode_u32 a b c d =? encode_u32 a' b' c' d')%N = beqb [a'; b'; c'; d'] [a; b; c; d].
Proof.
  intros. apply Bool.eq_iff_eq_true. rewrite N.eqb_eq, beqb_eq. split; intro E; [symmetry; apply u32_inj; exact E|injection E as -> -> -> ->; reflexivity].
Qed.
Lemma u16_eqb : forall a b a' b', (encode_u16 a b =? encode_u16 a' b')%N = beqb [a'; b'] [a; b].
Proof.
  intros. apply Bool.eq_iff_eq_true. rewrite N.eqb_eq, beqb_eq. split; intro E; [symmetry; apply u16_inj; exact E|injection E as -> ->; reflexivity].
Qed.

Lemma length_words : forall key, length_by_words key = key_is key (B "content-length").
Proof.
  intro key. unfold length_by_words. destruct (Nat.eqb_spec (List.length key) 14) as [E|E].
  - do 14 (destruct key as [|? key]; [discriminate E|]). destruct key as [|? key]; [|discriminate E].
    unfold cContent, cLength, first_word, k20, key_is. rewrite !u64_eqb. cbn [nth map]. unfold or20.
    cbn. rewrite ?Bool.andb_true_r, <- ?Bool.andb_assoc. reflexivity.
  - cbn [andb]. symmetry. apply Bool.not_true_is_false. unfold key_is. rewrite beqb_eq. intro C. apply E.
    apply (f_equal (@List.length byte)) in C. rewrite map_length in C. exact C.
Qed.

Ltac words := unfold cContent, cUpgrade, cTrailer, cConnecti, cOn, cType, cEncoding, cTransfer, cEncodin, first_word, second_word, k20, key_is;
  cbn [nth map]; rewrite ?u64_eqb, ?u32_eqb, ?u16_eqb; unfold or20;
  cbn; rewrite ?Bool.andb_true_r, <- ?Bool.andb_assoc; reflexivity.
Lemma upgrade_words : forall key, List.length key = 7 ->
  (encode_u64 (k20 key 0) (k20 key 1) (k20 key 2) (k20 key 3) (k20 key 4) (k20 key 5) (k20 key 6) x00 =? cUpgrade)%N = key_is key (B "upgrade").
Proof. intros key E. rewrite N.eqb_sym. do 7 (destruct key as [|? key]; [discriminate E|]). destruct key as [|? key]; [|discriminate E]. words. Qed.
Lemma trailer_words : forall key, List.length key = 7 ->
  (encode_u64 (k20 key 0) (k20 key 1) (k20 key 2) (k20 key 3) (k20 key 4) (k20 key 5) (k20 key 6) x00 =? cTrailer)%N = key_is key (B "trailer").
Proof. intros key E. rewrite N.eqb_sym. do 7 (destruct key as [|? key]; [discriminate E|]). destruct key as [|? key]; [|discriminate E]. words. Qed.
Lemma connection_words : forall key, List.length key = 10 ->
  (cConnecti =? first_word key)%N && (cOn =? encode_u16 (k20 key 8) (k20 key 9))%N = key_is key (B "connection").
Proof. intros key E. do 10 (destruct key as [|? key]; [discriminate E|]). destruct key as [|? key]; [|discriminate E]. words. Qed.
Lemma type_words : forall key, List.length key = 12 ->
  (cContent =? first_word key)%N && (cType =? encode_u32 (k20 key 8) (k20 key 9) (k20 key 10) (k20 key 11))%N = key_is key (B "content-type").
Proof. intros key E. do 12 (destruct key as [|? key]; [discriminate E|]). destruct key as [|? key]; [|discriminate E]. words. Qed.
Lemma encoding_words : forall key, List.length key = 16 ->
  (cContent =? first_word key)%N && (cEncoding =? second_word key)%N = key_is key (B "content-encoding").
Proof. intros key E. do 16 (destruct key as [|? key]; [discriminate E|]). destruct key as [|? key]; [|discriminate E]. words. Qed.
Lemma transfer_words : forall key, List.length key = 17 ->
  (cTransfer =? first_word key)%N && (cEncodin =? second_word key)%N && Byte.eqb (k20 key 16) "g" = key_is key (B "transfer-encoding").
Proof. intros key E. do 17 (destruct key as [|? key]; [discriminate E|]). destruct key as [|? key]; [|discriminate E]. words. Qed.

Lemma header_words : forall cfg key value r, header_by_words cfg key value r = apply_header cfg key value r.
Proof.
  intros cfg key value r. unfold header_by_words, apply_header. cbv zeta.
  destruct (Nat.eq_dec (List.length key) 7) as [E|N7]; [rewrite E, (upgrade_words key E), (trailer_words key E); reflexivity|].
  destruct (Nat.eq_dec (List.length key) 10) as [E|N10]; [rewrite E, (connection_words key E); reflexivity|].
  destruct (Nat.eq_dec (List.length key) 12) as [E|N12]; [rewrite E, (type_words key E); reflexivity|].
  destruct (Nat.eq_dec (List.length key) 16) as [E|N16]; [rewrite E, (encoding_words key E); reflexivity|].
  destruct (Nat.eq_dec (List.length key) 17) as [E|N17]; [rewrite E, (transfer_words key E); reflexivity|].
  do 18 (destruct key as [|? key]; [cbn [List.length] in *; first [reflexivity|congruence]|]). reflexivity.
Qed.

(* which names: a byte or-ed with 0x20 *)
Lemma reads_or : forall n k, N.testbit (bN n) 5 = true -> (or20 k = n <-> Reads n k).
Proof.
  intros n k H. unfold Reads. split.
  - intro E. subst n. unfold or20, bor. rewrite bN_byte_of_N. destruct k; vm_compute; tauto.
  - intros [E|E].
    + apply bN_inj in E. subst n. destruct k; vm_compute in H |- *; congruence.
    + apply bN_inj. rewrite <- E in H |- *. clear E n. destruct k; vm_compute in H |- *; congruence.
Qed.
Lemma reads_as : forall name key, forallb (fun n => N.testbit (bN n) 5) name = true -> (key_is key name = true <-> ReadsAs name key).
Proof.
  induction name as [|n name IH]; intros key H.
  - unfold key_is, ReadsAs. destruct key as [|k key]; cbn; split; intro E; try constructor; try discriminate; try reflexivity. inversion E.
  - cbn [forallb] in H. apply andb_prop in H. destruct H as [Hn H]. unfold ReadsAs.
    destruct key as [|k key]; [cbn; split; intro E; [discriminate E|inversion E]|].
    change (key_is (k :: key) (n :: name)) with (Byte.eqb (or20 k) n && key_is key name). rewrite Bool.andb_true_iff, (IH key H).
    split.
    + intros [E1 E2]. constructor; [|exact E2]. apply (reads_or n k Hn). apply beq_eq; exact E1.
    + intro E. inversion E as [|? ? ? ? E1 E2]. subst. split; [|exact E2]. apply (reads_or n k Hn) in E1. rewrite E1. apply beq_refl.
Qed.

Lemma header_effect : forall cfg key value r, let r' := header_by_words cfg key value r in
  kv_pairs (r_headers r') = kv_pairs (r_headers r) ++ [(key, value)] /\
  (ReadsAs (B "upgrade") key -> r_upgrade r' = choose_upgrade value) /\
  (~ ReadsAs (B "upgrade") key -> r_upgrade r' = r_upgrade r) /\
  (ReadsAs (B "connection") key -> r_connection r' = value) /\
  (~ ReadsAs (B "connection") key -> r_connection r' = r_connection r) /\
  (ReadsAs (B "content-type") key -> r_content_type r' = value) /\
  (~ ReadsAs (B "content-type") key -> r_content_type r' = r_content_type r) /\
  (ReadsAs (B "trailer") key -> enc_trailer (r_encoding r') = true) /\
  (~ ReadsAs (B "trailer") key -> enc_trailer (r_encoding r') = enc_trailer (r_encoding r)) /\
  (ReadsAs (B "content-encoding") key ->
     enc_content (r_encoding r') = fst (parse_encoding_string value (c_max_enc_tokens cfg))) /\
  (~ ReadsAs (B "content-encoding") key -> enc_content (r_encoding r') = enc_content (r_encoding r)) /\
  (ReadsAs (B "transfer-encoding") key ->
     (enc_transfer (r_encoding r'), enc_chunked (r_encoding r')) = parse_encoding_string value (c_max_enc_tokens cfg)) /\
  (~ ReadsAs (B "transfer-encoding") key ->
     enc_transfer (r_encoding r') = enc_transfer (r_encoding r) /\ enc_chunked (r_encoding r') = enc_chunked (r_encoding r)) /\
  r_method r' = r_method r /\ r_path r' = r_path r /\ r_query r' = r_query r /\ r_params r' = r_params r /\
  r_proto r' = r_proto r /\ r_content_length r' = r_content_length r /\ r_ctx r' = r_ctx r /\ r_env r' = r_env r /\
  r_hijacked r' = r_hijacked r.
Proof.
  intros cfg key value r r'. subst r'. rewrite header_words.
  assert (Q : forall name, forallb (fun n => N.testbit (bN n) 5) name = true ->
    (ReadsAs name key /\ key_is key name = true /\ List.length key = List.length name) \/ (~ ReadsAs name key /\ key_is key name = false)).
  { intros name Hn. pose proof (reads_as name key Hn) as I. destruct (key_is key name) eqn:E.
    - left. split; [apply I; reflexivity|]. split; [reflexivity|]. unfold key_is in E. apply beqb_eq in E.
      rewrite <- E, map_length. reflexivity.
    - right. split; [|reflexivity]. intro C. apply I in C. discriminate C. }
  pose proof (Q (B "upgrade") eq_refl) as Q1. pose proof (Q (B "connection") eq_refl) as Q2.
  pose proof (Q (B "content-type") eq_refl) as Q3. pose proof (Q (B "trailer") eq_refl) as Q4.
  pose proof (Q (B "content-encoding") eq_refl) as Q5. pose proof (Q (B "transfer-encoding") eq_refl) as Q6. clear Q.
  unfold apply_header. destruct (parse_encoding_string value (c_max_enc_tokens cfg)) as [toks ch].
  assert (X : key_is key (B "upgrade") = true -> key_is key (B "trailer") = false).
  { unfold key_is. intro E. apply beqb_eq in E. rewrite E. reflexivity. }
  destruct Q1 as [(H1 & K1 & E1)|(H1 & K1)].
  1: specialize (X K1); destruct Q4 as [(_ & K4 & _)|(H4 & _)]; [congruence|].
  1-2: destruct Q2 as [(H2 & K2 & E2)|(H2 & K2)]; try (cbn in E1, E2; congruence).
  all: destruct Q3 as [(H3 & K3 & E3)|(H3 & K3)]; try (cbn in E1, E3; congruence); try (cbn in E2, E3; congruence).
  all: try (destruct Q4 as [(H4 & K4 & E4)|(H4 & K4)]; try (cbn in E1, E4; congruence); try (cbn in E2, E4; congruence); try (cbn in E3, E4; congruence)).
  all: destruct Q5 as [(H5 & K5 & E5)|(H5 & K5)]; try (cbn in E1, E5; congruence); try (cbn in E2, E5; congruence); try (cbn in E3, E5; congruence); try (cbn in E4, E5; congruence).
  all: destruct Q6 as [(H6 & K6 & E6)|(H6 & K6)]; try (cbn in E1, E6; congruence); try (cbn in E2, E6; congruence); try (cbn in E3, E6; congruence); try (cbn in E4, E6; congruence); try (cbn in E5, E6; congruence).
  all: rewrite ?K1, ?K2, ?K3, ?K4, ?K5, ?K6.
  all: try (rewrite E1; change (List.length (B "upgrade")) with 7). all: try (rewrite E2; change (List.length (B "connection")) with 10).
  all: try (rewrite E3; change (List.length (B "content-type")) with 12). all: try (rewrite E4; change (List.length (B "trailer")) with 7).
  all: try (rewrite E5; change (List.length (B "content-encoding")) with 16). all: try (rewrite E6; change (List.length (B "transfer-encoding")) with 17).
  all: try (cbv iota zeta; repeat split; intros; first [reflexivity|contradiction]).
  cbv zeta.
  do 18 (match goal with |- context [match ?n with 0 => _ | _ => _ end] => destruct n end; [repeat split; intros; first [reflexivity|contradiction]|]).
  repeat split; intros; first [reflexivity|contradiction].
Qed.
