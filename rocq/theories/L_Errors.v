(* Lemmas for C93. *)
From Verif Require Import M_Base M_Status M_Errors S_Errors L_Base.

(* a table without two equal values but for given positions, by computation *)
Fixpoint distinct_from (x : bytes * http_error) (l : list (bytes * http_error)) : bool :=
  match l with
  | [] => true
  | y :: l' => (negb (same_error (snd x) (snd y)) || (beqb (fst x) (B "ErrURITooLong") && beqb (fst y) (B "ErrRequestURITooLong"))) &&
               negb (beqb (fst x) (fst y)) && distinct_from x l'
  end.
Fixpoint distinct_table (l : list (bytes * http_error)) : bool :=
  match l with [] => true | x :: l' => distinct_from x l' && distinct_table l' end.
Lemma distinct_from_in : forall x l, distinct_from x l = true -> forall y, In y l ->
  (same_error (snd x) (snd y) = false \/ (fst x = B "ErrURITooLong" /\ fst y = B "ErrRequestURITooLong")) /\ fst x <> fst y.
Proof.
  intros x l. induction l as [|z l IH]; intros H y HI; [destruct HI|]. cbn [distinct_from] in H. apply andb_prop in H. destruct H as [H HR]. apply andb_prop in H. destruct H as [H HN].
  destruct HI as [<-|HI]; [|exact (IH HR y HI)]. split.
  - destruct (same_error (snd x) (snd z)); [right|left; reflexivity]. apply andb_prop in H. destruct H as [H1 H2]. apply beqb_eq in H1, H2. auto.
  - intro E. rewrite E, beqb_refl in HN. discriminate HN.
Qed.
Lemma same_error_eq : forall a b, same_error a b = true <-> a = b.
Proof.
  intros [c m] [c' m']. unfold same_error. cbn [he_code he_msg]. rewrite andb_true_iff, N.eqb_eq, beqb_eq. split; [intros [-> ->]; reflexivity|intro E; injection E as -> ->; auto].
Qed.
Lemma distinct_table_in : forall l, distinct_table l = true -> forall n n' e, In (n, e) l -> In (n', e) l -> n = n' \/ Twins n n'.
Proof.
  induction l as [|x l IH]; intros H n n' e H1 H2; [destruct H1|]. cbn [distinct_table] in H. apply andb_prop in H. destruct H as [HF HT].
  pose proof (distinct_from_in x l HF) as D. assert (R : same_error e e = true) by (apply same_error_eq; reflexivity).
  destruct H1 as [E1|H1], H2 as [E2|H2].
  - left. congruence.
  - subst x. destruct (D _ H2) as [[C|C] _]; cbn [fst snd] in C; [congruence|]. right. left. exact C.
  - subst x. destruct (D _ H1) as [[C|C] _]; cbn [fst snd] in C; [congruence|]. right. right. exact C.
  - exact (IH HT n n' e H1 H2).
Qed.
