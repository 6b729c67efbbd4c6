(* Percent decoding of any text. *)
From Verif Require Import M_Base M_Uri S_Head L_Base L_Uri.

Lemma hexconv_any : forall c, hexconv c = byte_of_N (digit_or_0 c) /\ (digit_or_0 c < 16)%N.
Proof.
  intros c. unfold digit_or_0. destruct (hex_value c) as [v|] eqn:E; [apply hexconv_value; exact E|]. split; [|reflexivity].
  destruct c; try reflexivity; discriminate E.
Qed.
Lemma loose_lax : forall n s d, (List.length s <= n)%nat -> (pct_lax s = Some d <-> LooselyDecodes s d).
Proof.
  induction n as [|n IH]; intros s d L.
  - destruct s; [|cbn in L; lia]. cbn. split; [intros H; injection H as <-; constructor|intros H; inversion H; reflexivity].
  - destruct s as [|c r]; [cbn; split; [intros H; injection H as <-; constructor|intros H; inversion H; reflexivity]|]. cbn [pct_lax]. cbn in L.
    destruct (Byte.eqb c x25) eqn:E.
    + apply beq_eq in E. subst c. destruct r as [|h [|l r]]; [split; [discriminate|intros H; inversion H; congruence]|split; [discriminate|intros H; inversion H; congruence]|].
      destruct (hexconv_any h) as [-> Bh]. destruct (hexconv_any l) as [-> Bl]. rewrite nibbles by assumption. split.
      * intros H. destruct (pct_lax r) as [d0|] eqn:Er; [|discriminate H]. injection H as <-. apply LD_escape. apply IH; [cbn in L; lia|exact Er].
      * intros H. inversion H as [|? ? ? C|? ? ? d0 H0]; subst; [congruence|]. apply IH in H0; [|cbn in L; lia]. rewrite H0. reflexivity.
    + split.
      * intros H. destruct (pct_lax r) as [d0|] eqn:Er; [|discriminate H]. injection H as <-. apply LD_char; [apply beq_neq; exact E|]. apply IH; [lia|exact Er].
      * intros H. inversion H as [|? ? d0 C H0|? ? ? d0 H0]; subst; [|discriminate E]. apply IH in H0; [|lia]. rewrite H0. reflexivity.
Qed.
Lemma decodes_exactly : forall s d, uri_decode s = Some d <-> LooselyDecodes s d.
Proof. intros s d. rewrite uri_decode_lax. apply (loose_lax (List.length s)). lia. Qed.
Lemma refused_exactly : forall s, uri_decode s = None <-> exists a d t, LooselyDecodes a d /\ (List.length t < 2)%nat /\ s = a ++ x25 :: t.
Proof.
  intros s. rewrite uri_decode_lax. split.
  - assert (G : forall n s, (List.length s <= n)%nat -> pct_lax s = None -> exists a d t, LooselyDecodes a d /\ (List.length t < 2)%nat /\ s = a ++ x25 :: t).
    { clear s. induction n as [|n IH]; intros s L H; [destruct s; [discriminate H|cbn in L; lia]|]. destruct s as [|c r]; [discriminate H|]. cbn [pct_lax] in H. cbn in L.
      destruct (Byte.eqb c x25) eqn:E.
      - apply beq_eq in E. subst c. destruct r as [|h [|l r]].
        + exists [], [], []. split; [constructor|]. split; [cbn; lia|reflexivity].
        + exists [], [], [h]. split; [constructor|]. split; [cbn; lia|reflexivity].
        + destruct (pct_lax r) eqn:Er; [discriminate H|]. destruct (IH r) as (a & d & t & Ha & Ht & ->); [cbn in L; lia|exact Er|].
          exists (x25 :: h :: l :: a). eexists. exists t. split; [apply LD_escape; exact Ha|]. split; [exact Ht|reflexivity].
      - destruct (pct_lax r) eqn:Er; [discriminate H|]. destruct (IH r) as (a & d & t & Ha & Ht & ->); [lia|exact Er|].
        exists (c :: a). eexists. exists t. split; [apply LD_char; [apply beq_neq; exact E|exact Ha]|]. split; [exact Ht|reflexivity]. }
    apply (G (List.length s)). lia.
  - intros (a & d & t & H & L & ->). induction H as [|c s0 d Hc H IH|h l s0 d H IH]; cbn [app pct_lax].
    + change (Byte.eqb x25 x25) with true. cbn iota. destruct t as [|h [|l t]]; try reflexivity. cbn in L. lia.
    + apply beq_neq in Hc. rewrite Hc. rewrite IH. reflexivity.
    + change (Byte.eqb x25 x25) with true. cbn iota. rewrite IH. reflexivity.
Qed.
Lemma pct_loose : forall s d, PctDecodes s d -> LooselyDecodes s d.
Proof. intros s d H. apply decodes_exactly. apply uri_decode_spec. exact H. Qed.
Lemma loose_once : forall s d d', LooselyDecodes s d -> LooselyDecodes s d' -> d = d'.
Proof. intros s d d' H H'. apply decodes_exactly in H, H'. congruence. Qed.
