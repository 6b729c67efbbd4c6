(* The mutators of a router. *)
From Coq Require Import Permutation.
From Verif Require Import M_Base M_Status M_Method M_Proto M_KeyValue M_Query M_Request M_Response M_Suit M_Path M_Radix M_Router S_Routes S_Router S_Mutators
  L_Base L_Path L_Radix L_Router L_Router2 L_Router3 L_Router4 L_Router5.

Section Mut.
Variable W : Type.
Notation ops := (list (list nat * rop W)).
Lemma alias_renames : forall from to, renames from to (alias from to).
Proof.
  intros from to r. unfold alias, alias_env. split; intros H.
  - rewrite H, beqb_refl. reflexivity.
  - destruct (beqb (r_path r) from) eqn:E; [apply beqb_eq in E; contradiction|reflexivity].
Qed.
Lemma registers_items : forall prefix (o : rop W), Registers prefix o (mutator_items W prefix o).
Proof.
  intros prefix o. destruct o; cbn [mutator_items]; try (apply Rg_other; discriminate).
  - apply Rg_mutator.
  - apply Rg_alias. apply alias_renames.
Qed.
Lemma x_mutators_of : forall (os : ops) x, Running os x -> exists a, build os new_app = Some a /\ x_mutators x = mutators_of W (a_root a).
Proof.
  intros os x (a & g & routes & sorted & R1 & R2 & R3 & R4 & R5 & R6). exists a. split; [exact R1|].
  pose proof (prepared W os a R1) as HP. rewrite R2 in HP. destruct HP as (_ & _ & _ & _ & P5 & _).
  rewrite <- P5. unfold initialize in R6. destruct (rg_dynamic _); [destruct (as_tree _ _); [|discriminate]|]; injection R6 as <-; reflexivity.
Qed.
Lemma in_order_at : forall (os : ops) g, Inv W os g -> forall c addr, sub W g addr = Some c -> InOrder os addr (mutators_of W c).
Proof.
  intros os g [HI _]. induction c as [c IH] using (router_ind2 W). intros addr Hs. destruct (HI addr c Hs) as (_ & _ & HL & _ & O5 & _).
  assert (E : mutators_of W c = g_mutators c ++ flat_map (mutators_of W) (g_children c)) by (destruct c; reflexivity).
  rewrite E, O5, !flat_map_concat_map. apply In_order.
  - clear O5. induction (calls os addr) as [|o l IHl]; cbn [map]; [constructor|]. constructor; [apply registers_items|exact IHl].
  - rewrite map_length. exact HL.
  - intros i l Hl. rewrite nth_error_map in Hl. destruct (nth_error (g_children c) i) as [d|] eqn:Ed; [|discriminate]. injection Hl as <-.
    apply IH; [apply nth_error_In in Ed; exact Ed|]. rewrite sub_snoc, Hs. exact Ed.
Qed.
Theorem mutators_in_order : forall (os : ops) x, Running os x -> InOrder os [] (x_mutators x).
Proof.
  intros os x HR. destruct (x_mutators_of os x HR) as (a & Hb & ->). apply (in_order_at os (a_root a)); [apply build_inv; exact Hb|reflexivity].
Qed.
(* the order leaves nothing open *)
Definition alike (mus mus' : list (request -> request)) : Prop := Forall2 (fun mu mu' => forall r, mu r = mu' r) mus mus'.
Lemma registers_alike : forall prefix (o : rop W) l l', Registers prefix o l -> Registers prefix o l' -> alike l l'.
Proof.
  intros prefix o l l' H H'. destruct H as [mu|from to mu Hm|o N1 N2].
  - inversion H'; subst; [constructor; [reflexivity|constructor]|]. exfalso. exact (H mu eq_refl).
  - inversion H' as [|f' t' mu' Hm'|o' N1 N2]; subst; [|exfalso; exact (N2 from to eq_refl)]. constructor; [|constructor]. intros r.
    destruct (Hm r) as [A1 A2]. destruct (Hm' r) as [B1 B2]. destruct (list_eq_dec byte_eq_dec (r_path r) (path_join prefix from)) as [D|D].
    + rewrite A1, B1 by exact D. reflexivity.
    + rewrite A2, B2 by exact D. reflexivity.
  - inversion H'; subst; [exfalso; exact (N1 mu eq_refl)|exfalso; exact (N2 from to eq_refl)|constructor].
Qed.
Lemma alike_app : forall a a' b b', alike a a' -> alike b b' -> alike (a ++ b) (a' ++ b').
Proof. intros a a' b b'. apply Forall2_app. Qed.
Lemma in_order_alike : forall (os : ops) addr l, InOrder os addr l -> forall l', InOrder os addr l' -> alike l l'.
Proof.
  intros os. fix IH 3. intros addr l H. destruct H as [addr own below H1 H2 H3]. intros l' H'. inversion H' as [addr' own' below' K1 K2 K3]; subst.
  apply alike_app.
  - clear - H1 K1. revert own' K1. induction H1 as [|o l os' ls Ho _ IHl]; intros own' K1; inversion K1; subst; cbn [concat]; [constructor|].
    apply alike_app; [eapply registers_alike; eassumption|apply IHl; assumption].
  - assert (E : List.length below = List.length below') by congruence. clear H2 K2 K1 H1 H'.
    assert (K : forall i l l', nth_error below i = Some l -> nth_error below' i = Some l' -> alike l l').
    { intros i l l' Hl Hl'. exact (IH _ l (H3 i l Hl) l' (K3 i l' Hl')). }
    clear H3 K3 IH. revert below' E K. induction below as [|x below IHb]; intros below' E K; destruct below' as [|x' below']; try discriminate; cbn [concat]; [constructor|].
    apply alike_app; [apply (K 0%nat); reflexivity|]. apply IHb; [cbn in E; lia|]. intros i l l' A B. apply (K (S i)); assumption.
Qed.
Lemma alike_runs : forall mus mus' r, alike mus mus' -> one_by_one mus r = one_by_one mus' r.
Proof.
  intros mus mus' r H. revert r. induction H as [|mu mu' l l' Hm _ IH]; intros r; [reflexivity|]. cbn. rewrite Hm. apply IH.
Qed.
Theorem order_settled : forall (os : ops) l l' r, InOrder os [] l -> InOrder os [] l' -> one_by_one l r = one_by_one l' r /\ List.length l = List.length l'.
Proof.
  intros os l l' r H H'. pose proof (in_order_alike os [] l H l' H') as A. split; [apply alike_runs; exact A|]. clear - A. induction A; cbn; congruence.
Qed.
(* all of them, each once *)
Theorem every_mutator : forall (os : ops) x, Running os x ->
  exists all, Forall2 (fun call mus => Registers (full_prefix os (fst call)) (snd call) mus) os all /\ Permutation (x_mutators x) (concat all).
Proof.
  intros os x HR. destruct (x_mutators_of os x HR) as (a & Hb & ->). pose proof (build_inv W os a Hb) as HI.
  exists (map (fun y => mutator_items W (full_prefix os (fst y)) (snd y)) os). split.
  - assert (EE : forall l, Forall2 (fun call mus => Registers (full_prefix os (fst call)) (snd call) mus) l (map (fun y => mutator_items W (full_prefix os (fst y)) (snd y)) l)).
    { induction l as [|y l IHl]; cbn [map]; [constructor|]. constructor; [apply registers_items|exact IHl]. }
    apply EE.
  - rewrite <- (mutators_collect W default_all_errors).
    eapply Permutation_trans; [apply Permutation_map; apply (collect_all W _ (fun c => map (fun mu => (mu, default_all_errors)) (g_mutators c))
      (fun x => map (fun mu => (mu, default_all_errors)) (mutator_items W (full_prefix os (fst x)) (snd x))) os (a_root a) HI)|].
    + intros addr c Hs. destruct HI as [HI1 _]. destruct (HI1 addr c Hs) as (_ & _ & _ & _ & O5 & _). rewrite O5. unfold calls.
      assert (EE : forall l, map (fun mu => (mu, @default_all_errors W)) (flat_map (mutator_items W (full_prefix os addr)) (map snd (filter (fun x0 => addr_eqb (fst x0) addr) l))) =
        flat_map (fun x0 => map (fun mu => (mu, default_all_errors)) (mutator_items W (full_prefix os (fst x0)) (snd x0))) (filter (fun x0 => addr_eqb (fst x0) addr) l)).
      { induction l as [|[ad o] l IHl]; [reflexivity|]. cbn [filter fst]. destruct (addr_eqb ad addr) eqn:Ea; [|exact IHl].
        apply addr_eqb_eq in Ea. subst. cbn [map flat_map fst snd]. rewrite map_app, IHl. reflexivity. }
      rewrite <- EE. apply Permutation_refl.
    + assert (EE : forall l, map fst (flat_map (placed W _ (fun x => map (fun mu => (mu, @default_all_errors W)) (mutator_items W (full_prefix os (fst x)) (snd x))) os []) l) =
        concat (map (fun y => mutator_items W (full_prefix os (fst y)) (snd y)) l)).
      { induction l as [|[ad o] l IHl]; [reflexivity|]. cbn [flat_map fst snd map concat]. rewrite !map_app, IHl. f_equal.
        unfold placed. rewrite wrap_keys, map_map. cbn [fst snd]. apply map_id. }
      rewrite EE. apply Permutation_refl.
Qed.
Theorem mutated_first : forall (x : runtime W) r, route x r = route (without x) (one_by_one (x_mutators x) r).
Proof. intros x r. unfold route, arrive. cbn [without x_mutators x_table run_mutators fold_left]. reflexivity. Qed.
Theorem mutated_error : forall (x : runtime W) w r e,
  on_error x w r e = HUpdate (one_by_one (x_mutators x)) (on_err (without x) w (one_by_one (x_mutators x) r) (EHttp e)).
Proof. reflexivity. Qed.

(* ---- aliases, however they follow each other ---- *)
Lemma follows_some : forall l p, exists q from, Follows l p q from.
Proof.
  induction l as [|[f t] l IH]; intros p; [exists p, None; constructor|]. destruct (list_eq_dec byte_eq_dec p f) as [->|N].
  - destruct (IH t) as (q & from & H). eexists. eexists. apply Fo_alias. exact H.
  - destruct (IH p) as (q & from & H). exists q, from. apply Fo_other; assumption.
Qed.
Lemma follows_run : forall l p q from, Follows l p q from -> forall r, r_path r = p ->
  one_by_one (map (fun ft => alias (fst ft) (snd ft)) l) r = set_path q (noted from r).
Proof.
  intros l p q from H. induction H as [p|f t l p q from N H IH|f t l q from H IH]; intros r Hr; unfold one_by_one in *; cbn [map fold_left fst snd].
  - cbn [noted]. rewrite <- Hr. destruct r; reflexivity.
  - destruct (alias_renames f t r) as [_ A]. rewrite A by (rewrite Hr; exact N). apply IH. exact Hr.
  - destruct (alias_renames f t r) as [A _]. rewrite (A Hr). rewrite (IH (set_path t (alias_env f r))) by (destruct r; reflexivity).
    destruct from as [g|]; cbn [noted]; destruct r; reflexivity.
Qed.
Lemma follows_one : forall l p q from, Follows l p q from -> forall q' from', Follows l p q' from' -> q = q' /\ from = from'.
Proof.
  intros l p q from H. induction H as [p|f t l p q from N H IH|f t l q from H IH]; intros q' from' H'; inversion H'; subst; try contradiction.
  - split; reflexivity.
  - apply IH. assumption.
  - match goal with X : Follows l t q' _ |- _ => destruct (IH _ _ X) as [-> ->] end. split; reflexivity.
Qed.
Theorem aliases_exact : forall (os : ops) x, Running os x -> NoMutators os ->
  exists l, Permutation l (aliases os) /\ InOrder os [] (map (fun ft => alias (fst ft) (snd ft)) l) /\
    forall r, exists q from, Follows l (r_path r) q from /\ arrive x r = set_path (normalize q) (noted from r).
Proof.
  intros os x HR HN. destruct (alias_perm _ _ (running_mutators W os x HR HN)) as (l & El & Hl). exists l. split; [exact Hl|].
  split; [rewrite <- El; apply mutators_in_order; exact HR|]. intros r. destruct (follows_some l (r_path r)) as (q & from & HF). exists q, from. split; [exact HF|].
  unfold arrive. rewrite El. change (run_mutators ?m r) with (one_by_one m r). rewrite (follows_run l _ q from HF r eq_refl). destruct from; destruct r; reflexivity.
Qed.
End Mut.
