(* Lemmas: exactly which cookies a client reads back. *)
From Verif Require Import M_Base M_Response S_KeyValue S_Chunk S_Response L_Base L_Response L_Response2 L_Response3 L_Attach L_ResponseProps.

Definition semis (l : bytes) : nat := count_occ Byte.byte_eq_dec l x3b.
Lemma semis_app : forall a b, semis (a ++ b) = (semis a + semis b)%nat.
Proof. intros a b. unfold semis. apply count_occ_app. Qed.
Lemma semis_none : forall l, semis l = 0%nat -> ~ In x3b l.
Proof. intros l H. apply (count_occ_not_In Byte.byte_eq_dec). exact H. Qed.
Lemma split_length : forall l, List.length (split_at x3b l) = S (semis l).
Proof.
  induction l as [|x l IH]; [reflexivity|]. cbn [split_at]. unfold semis. cbn [count_occ]. destruct (Byte.byte_eq_dec x x3b) as [->|N].
  - rewrite beq_refl. cbn [List.length]. rewrite IH. reflexivity.
  - replace (Byte.eqb x x3b) with false by (symmetry; apply beq_neq; exact N). destruct (split_at x3b l) as [|a r]; [discriminate IH|]. cbn [List.length] in *. exact IH.
Qed.
Lemma semis_join : forall l x, semis (join (B "; ") (x :: l)) = (semis x + list_sum (map semis l) + List.length l)%nat.
Proof.
  induction l as [|y l IH]; intros x; [cbn [join map list_sum fold_right List.length]; lia|]. change (join (B "; ") (x :: y :: l)) with (x ++ B "; " ++ join (B "; ") (y :: l)).
  rewrite !semis_app, IH. change (semis (B "; ")) with 1%nat. cbn [map list_sum fold_right List.length]. unfold list_sum. lia.
Qed.
Lemma sum_zero : forall l, list_sum l = 0%nat -> Forall (fun n => n = 0%nat) l.
Proof. induction l as [|x l IH]; intros H; constructor; cbn [list_sum fold_right] in H; [lia|]. apply IH. unfold list_sum. lia. Qed.
Lemma before_none : forall c l a b, before_byte c l = Some (a, b) -> ~ In c a /\ l = a ++ c :: b.
Proof.
  intros c l. induction l as [|x l IH]; intros a b H; [discriminate|]. cbn [before_byte] in H. destruct (Byte.eqb x c) eqn:E.
  - injection H as <- <-. apply beq_eq in E. subst x. split; [intros []|reflexivity].
  - destruct (before_byte c l) as [[a0 b0]|] eqn:E0; [|discriminate]. injection H as <- <-. destruct (IH _ _ eq_refl) as [H1 ->]. split; [|reflexivity].
    intros [->|Hi]; [|exact (H1 Hi)]. rewrite beq_refl in E. discriminate.
Qed.
Lemma ltrim_sub : forall l x, In x (ltrim l) -> In x l.
Proof. induction l as [|y l IH]; intros x H; [exact H|]. cbn [ltrim] in H. destruct (is_ows y); [right; apply IH; exact H|exact H]. Qed.
Lemma trim_sub : forall l x, In x (trim l) -> In x l.
Proof. intros l x H. unfold trim in H. apply in_rev in H. apply ltrim_sub in H. apply in_rev in H. apply ltrim_sub in H. exact H. Qed.
Lemma map_eq_in : forall A B0 (f g : A -> B0) l, map f l = map g l -> forall a, In a l -> f a = g a.
Proof. intros A B0 f g l. induction l as [|x l IH]; intros E a []; injection E as E1 E2; [subst; exact E1|apply IH; assumption]. Qed.
Definition renamed (a : bytes * option bytes) : bytes * option bytes := (if beqb (fst a) (B "MaxAge") then B "Max-Age" else fst a, snd a).
Lemma attributes_renamed : forall c, attributes (B "Max-Age") c = map renamed (attributes (B "MaxAge") c).
Proof.
  intros c. unfold attributes. rewrite !map_app. destruct (nonempty (ck_path c)), (nonempty (ck_domain c)), (ck_expires c), (negb (ck_maxage c =? 0)%Z),
    (nonempty (ck_samesite c)), (ck_secure c), (ck_httponly c); reflexivity.
Qed.
Lemma attributes_name : forall c a, In a (attributes (B "MaxAge") c) -> name_okb (fst a) = true.
Proof.
  intros c a H. unfold attributes in H. repeat (apply in_app_or in H; destruct H as [H|H]);
    repeat match type of H with context [match ?x with _ => _ end] => destruct x end; unfold opt in H;
    repeat match type of H with context [if ?x then _ else _] => destruct x end; cbn [In] in H; try (destruct H); subst; try reflexivity; contradiction.
Qed.
Theorem cookie_exact : forall c,
  read_set_cookie (set_cookie_text (B "MaxAge") c) = Some (ck_name c, ck_value c, attributes (B "Max-Age") c) <-> PlainCookie c /\ ck_maxage c = 0%Z.
Proof.
  intros c. split; [|intros [H1 H2]; exact (proj2 (cookie_standard c H2 H1))].
  intros H. unfold read_set_cookie in H. pose proof (split_length (set_cookie_text (B "MaxAge") c)) as L.
  assert (Z0 : semis (ck_name c ++ B "=" ++ ck_value c) = 0%nat /\ Forall (fun t => semis t = 0%nat) (map attribute_text (attributes (B "MaxAge") c))).
  { destruct (split_at x3b _) as [|p as_]; [discriminate|]. destruct (before_byte x3d p) as [[n v]|]; [|discriminate].
    assert (K : List.length as_ = List.length (attributes (B "MaxAge") c)).
    { rewrite <- (map_length renamed (attributes (B "MaxAge") c)), <- attributes_renamed, <- (map_length read_attribute as_). congruence. }
    unfold set_cookie_text in L. rewrite semis_join, map_length in L. cbn [List.length] in L.
    assert (K2 : list_sum (map semis (map attribute_text (attributes (B "MaxAge") c))) = 0%nat) by lia. split; [lia|].
    apply sum_zero in K2. rewrite Forall_map in K2. exact K2. }
  destruct Z0 as [Z1 Z2]. clear L.
  assert (Ha : Forall (fun t => ~ In x3b t) (map attribute_text (attributes (B "MaxAge") c))).
  { apply Forall_forall. intros t Ht. apply semis_none. rewrite Forall_forall in Z2. apply Z2. exact Ht. }
  unfold set_cookie_text in H. rewrite split_join in H by (try exact Ha; apply semis_none; exact Z1).
  rewrite !semis_app in Z1. change (semis (B "=")) with 0%nat in Z1.
  destruct (before_byte x3d (ck_name c ++ B "=" ++ ck_value c)) as [[n v]|] eqn:Eb; [|discriminate]. injection H as H1 H2 H3.
  pose proof (before_none _ _ _ _ Eb) as [B1 _].
  assert (Ne : ~ In x3d (ck_name c)) by (rewrite <- H1; intros Hi; apply B1; apply trim_sub; exact Hi).
  change (B "=" ++ ck_value c) with (x3d :: ck_value c) in Eb. rewrite before_byte_app in Eb by exact Ne. injection Eb as <- <-.
  rewrite attributes_renamed, !map_map in H3. pose proof (map_eq_in _ _ _ _ _ H3) as K.
  assert (KV : forall m x, In (m, Some x) (attributes (B "MaxAge") c) -> plain_text x).
  { intros m x Hi. pose proof (attributes_name _ _ Hi) as Hn. destruct (name_ok _ Hn) as (N1 & N2 & N3). cbn [fst] in N1, N2, N3. split.
    - rewrite Forall_forall in Ha. specialize (Ha _ (in_map attribute_text _ _ Hi)). intros Hx. apply Ha. unfold attribute_text. cbn [fst snd].
      apply in_or_app. right. apply in_or_app. right. exact Hx.
    - specialize (K _ Hi). unfold attribute_text, read_attribute, renamed in K. cbn [fst snd] in K.
      change (SP :: m ++ B "=" ++ x) with ((SP :: m) ++ x3d :: x) in K. rewrite before_byte_app in K by (intros [Hx|Hx]; [discriminate Hx|exact (N2 Hx)]).
      injection K as _ K2. exact K2. }
  assert (KE : plain_text []) by (split; [intros []|reflexivity]).
  assert (IP : In (B "Path", Some (ck_path c)) (attributes (B "MaxAge") c) \/ ck_path c = []).
  { unfold attributes. destruct (ck_path c) eqn:E; [right; reflexivity|left]. cbn [nonempty opt]. apply in_or_app. left. left. reflexivity. }
  assert (ID : In (B "Domain", Some (ck_domain c)) (attributes (B "MaxAge") c) \/ ck_domain c = []).
  { unfold attributes. destruct (ck_domain c) eqn:E; [right; reflexivity|left]. cbn [nonempty opt]. apply in_or_app. right. apply in_or_app. left. left. reflexivity. }
  assert (IE : match ck_expires c with Some e => In (B "Expires", Some e) (attributes (B "MaxAge") c) | None => True end).
  { unfold attributes. destruct (ck_expires c) eqn:E; [|exact I]. apply in_or_app. right. apply in_or_app. right. apply in_or_app. left. left. reflexivity. }
  assert (IM : In (B "MaxAge", Some (itoa (Z.max 0 (ck_maxage c)))) (attributes (B "MaxAge") c) \/ ck_maxage c = 0%Z).
  { unfold attributes. destruct (ck_maxage c =? 0)%Z eqn:E; [right; apply Z.eqb_eq; exact E|left]. cbn [negb opt].
    apply in_or_app. right. apply in_or_app. right. apply in_or_app. right. apply in_or_app. left. left. reflexivity. }
  assert (IS : In (B "SameSite", Some (ck_samesite c)) (attributes (B "MaxAge") c) \/ ck_samesite c = []).
  { unfold attributes. destruct (ck_samesite c) eqn:E; [right; reflexivity|left]. cbn [nonempty opt].
    apply in_or_app. right. apply in_or_app. right. apply in_or_app. right. apply in_or_app. right. apply in_or_app. left. left. reflexivity. }
  split.
  - split; [split; [apply semis_none; lia|exact H1]|]. split; [exact Ne|]. split; [split; [apply semis_none; lia|exact H2]|].
    split; [destruct IP as [X|X]; [exact (KV _ _ X)|rewrite X; exact KE]|]. split; [destruct ID as [X|X]; [exact (KV _ _ X)|rewrite X; exact KE]|].
    split; [|destruct IS as [X|X]; [exact (KV _ _ X)|rewrite X; exact KE]].
    destruct (ck_expires c); [exact (KV _ _ IE)|exact KE].
  - destruct IM as [X|X]; [|exact X]. exfalso. specialize (K _ X). unfold attribute_text, read_attribute, renamed in K. cbn [fst snd] in K.
    change (SP :: B "MaxAge" ++ B "=" ++ itoa (Z.max 0 (ck_maxage c))) with ((SP :: B "MaxAge") ++ x3d :: itoa (Z.max 0 (ck_maxage c))) in K.
    rewrite before_byte_app in K by (apply not_in_dec; reflexivity). vm_compute in K. discriminate K.
Qed.
