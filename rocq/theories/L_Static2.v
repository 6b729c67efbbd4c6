(* Exactly which file is opened. *)
From Verif Require Import M_Base M_Status M_Method M_Proto M_KeyValue M_Query M_Request M_Response M_Suit M_Path M_Radix M_Router M_Static S_Routes S_Router S_Static S_Static2
  L_Base L_Path L_Router5 L_Router7 L_Static.

Lemma separator_of : forall p, Separator p (using_separator p).
Proof.
  induction p as [|c p IH]; cbn [using_separator]; [right; repeat split; intros []|].
  destruct (Byte.eqb c SLASH) eqn:E1.
  - apply beq_eq in E1. subst c. left. exists [], p. repeat split; [left; reflexivity|intros []..].
  - destruct (Byte.eqb c BACKSLASH) eqn:E2; cbn [orb].
    + apply beq_eq in E2. subst c. left. exists [], p. repeat split; [right; reflexivity|intros []..].
    + apply beq_neq in E1. apply beq_neq in E2. destruct IH as [(a & b & Hp & Hc & H1 & H2)|(H1 & H2 & Hc)].
      * left. exists (c :: a), b. split; [rewrite Hp at 1; reflexivity|]. split; [exact Hc|]. split; intros [H|H]; [apply E1; exact H|apply H1; exact H|apply E2; exact H|apply H2; exact H].
      * right. split; [intros [H|H]; [apply E1; exact H|apply H1; exact H]|]. split; [intros [H|H]; [apply E2; exact H|apply H2; exact H]|exact Hc].
Qed.
Lemma with_end : forall p w, with_trailing_sep p = Some w -> WithEnd p w.
Proof.
  intros p w H. unfold with_trailing_sep in H. destruct p as [|c q _] using rev_ind; [discriminate|]. rewrite last_byte_snoc in H.
  split; [destruct q; discriminate|]. exists (using_separator (q ++ [c])). split; [apply separator_of|].
  destruct (Byte.eqb c (using_separator (q ++ [c]))) eqn:E; injection H as <-.
  - apply beq_eq in E. left. exists q. rewrite <- E. split; reflexivity.
  - apply beq_neq in E. right. split; [|reflexivity]. intros q' E'. apply app_inj_tail in E'. apply E. apply E'.
Qed.
Lemma no_path_exact : forall prefix root, new_path prefix root = None <-> prefix = [] \/ root = [].
Proof.
  assert (K : forall p, with_trailing_sep p = None <-> p = []).
  { intros p. unfold with_trailing_sep. destruct p as [|c q _] using rev_ind; [split; reflexivity|]. rewrite last_byte_snoc.
    destruct (Byte.eqb _ _); (split; [discriminate|destruct q; discriminate]). }
  intros prefix root. unfold new_path. destruct (with_trailing_sep prefix) as [p|] eqn:Ep; [|split; [intros _; left; apply K; exact Ep|reflexivity]].
  destruct (with_trailing_sep root) as [w|] eqn:Ew; [|split; [intros _; right; apply K; exact Ew|reflexivity]].
  split; [discriminate|]. intros [H|H]; apply K in H; congruence.
Qed.
Lemma file_name : forall pp path, static_file pp path =
  if Nat.leb (List.length (rp_prefix pp)) (List.length (rp_with pp) + List.length path) then Some (NameOf (rp_prefix pp) (rp_with pp) path) else None.
Proof.
  intros pp path. unfold static_file, NameOf. set (P := rp_prefix pp). set (W := rp_with pp).
  destruct (Nat.leb_spec (List.length P) (List.length path)) as [H|H].
  - destruct (Nat.leb_spec (List.length P) (List.length W + List.length path)) as [_|?]; [|lia]. f_equal. symmetry. apply firstn_all2. rewrite app_length, skipn_length. lia.
  - destruct (Nat.leb_spec (List.length P - List.length path) (List.length W)); destruct (Nat.leb_spec (List.length P) (List.length W + List.length path)); try lia; [|reflexivity].
    f_equal. rewrite (skipn_all2 path) by lia. rewrite app_nil_r. f_equal. lia.
Qed.
Theorem static_exact : forall prefix root pp, new_path prefix root = Some pp ->
  exists P W, WithEnd prefix P /\ WithEnd root W /\ forall b path,
    (forall file, snd (static_step pp b path) = SOpen file <->
       (List.length P <= List.length W + List.length path)%nat /\ file = NameOf P W path /\ NoDots file) /\
    (snd (static_step pp b path) = SNotFound <-> (List.length P <= List.length W + List.length path)%nat /\ ~ NoDots (NameOf P W path)) /\
    (snd (static_step pp b path) = SPanic <-> (List.length W + List.length path < List.length P)%nat).
Proof.
  intros prefix root pp H. destruct (new_path_ok _ _ _ H) as (Hok & Hp & Hw). exists (rp_prefix pp), (rp_with pp).
  split; [apply with_end; exact Hp|]. split; [apply with_end; exact Hw|]. intros b path.
  rewrite (history_irrelevant pp b path Hok), file_name. destruct (Nat.leb_spec (List.length (rp_prefix pp)) (List.length (rp_with pp) + List.length path)) as [L|L].
  - destruct (is_safe _) eqn:E.
    + apply is_safe_dots in E. split; [|split].
      * intros file. split; [intros HH; injection HH as <-; split; [exact L|split; [reflexivity|exact E]]|]. intros (_ & -> & _). reflexivity.
      * split; [discriminate|]. intros [_ C]. contradiction.
      * split; [discriminate|lia].
    + assert (E' : ~ NoDots (NameOf (rp_prefix pp) (rp_with pp) path)) by (intros C; apply is_safe_dots in C; congruence). split; [|split].
      * intros file. split; [discriminate|]. intros (_ & -> & C). contradiction.
      * split; [intros _; split; assumption|reflexivity].
      * split; [discriminate|lia].
  - split; [|split].
    + intros file. split; [discriminate|]. intros (C & _). lia.
    + split; [discriminate|]. intros (C & _). lia.
    + split; [intros _; exact L|reflexivity].
Qed.
