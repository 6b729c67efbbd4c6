(* Registration: the tree of groups against the list of calls. *)
From Coq Require Import Permutation Sorted.
From Verif Require Import M_Base M_Status M_Method M_KeyValue M_Request M_Response M_Suit M_Path M_Radix M_Router S_Routes S_Router
  L_Base L_Path.

Section Router.
Variable W : Type.
Notation handler := (handler W). Notation middleware := (middleware W). Notation rop := (rop W).
Notation catcher := (catcher W). Notation mtable := (mtable W). Notation router := (router W).
Notation ops := (list (list nat * rop)).
Notation item := (bytes * method * handler)%type.

Lemma method_eq_dec : forall a b : method, {a = b} + {a <> b}.
Proof. decide equality. Qed.
Lemma method_eqb_eq : forall a b, method_eqb a b = true <-> a = b.
Proof. intros a b. destruct a, b; cbn; split; congruence. Qed.
Lemma method_eqb_refl : forall a, method_eqb a a = true.
Proof. intros a. apply method_eqb_eq. reflexivity. Qed.

(* ---- tables of routes ---- *)
Definition flat (rs : list (bytes * mtable)) : list item :=
  flat_map (fun e => map (fun mh => (fst e, fst mh, snd mh)) (snd e)) rs.
Definition wf (rs : list (bytes * mtable)) : Prop :=
  NoDup (map fst rs) /\ Forall (fun e => snd e <> []) rs /\ NoDup (map fst (flat rs)).
Lemma mt_get_in : forall (t : mtable) m, mt_get t m = None <-> ~ In m (map fst t).
Proof.
  induction t as [|[k h] t IH]; intros m; cbn [mt_get map fst In]; [tauto|]. destruct (method_eqb k m) eqn:E.
  - apply method_eqb_eq in E. split; [discriminate|]. intros H. exfalso. apply H. left. exact E.
  - rewrite IH. split; [|tauto]. intros H [H1|H1]; [|tauto]. apply method_eqb_eq in H1. congruence.
Qed.
Lemma rt_get_none : forall (rs : list (bytes * mtable)) p, rt_get rs p = None <-> ~ In p (map fst rs).
Proof.
  induction rs as [|[k t] rs IH]; intros p; cbn [rt_get map fst In]; [tauto|]. destruct (beqb k p) eqn:E.
  - apply beqb_eq in E. split; [discriminate|]. intros H. exfalso. apply H. left. exact E.
  - rewrite IH. split; [|tauto]. intros H [H1|H1]; [|tauto]. apply beqb_neq in E. congruence.
Qed.
Lemma rt_split : forall (rs : list (bytes * mtable)) p t, rt_get rs p = Some t ->
  exists a b, rs = a ++ (p, t) :: b /\ ~ In p (map fst a) /\ forall t', rt_set rs p t' = a ++ (p, t') :: b.
Proof.
  induction rs as [|[k t0] rs IH]; intros p t H; cbn [rt_get] in H; [discriminate|]. cbn [rt_set]. destruct (beqb k p) eqn:E.
  - injection H as ->. apply beqb_eq in E. subst. exists [], rs. cbn. auto.
  - destruct (IH p t H) as (a & b & -> & Ha & Hs). exists ((k, t0) :: a), b. split; [reflexivity|]. apply beqb_neq in E. split.
    + intros [H1|H1]; [exact (E H1)|auto].
    + intros t'. cbn [app]. rewrite Hs. reflexivity.
Qed.
Lemma rt_set_new : forall (rs : list (bytes * mtable)) p t', rt_get rs p = None -> rt_set rs p t' = rs ++ [(p, t')].
Proof.
  induction rs as [|[k t0] rs IH]; intros p t' H; cbn [rt_get rt_set app] in *; [reflexivity|].
  destruct (beqb k p); [discriminate|]. rewrite IH by exact H. reflexivity.
Qed.
Lemma flat_app : forall a b, flat (a ++ b) = flat a ++ flat b.
Proof. intros a b. unfold flat. apply flat_map_app. Qed.
Lemma in_flat : forall rs p m h, In (p, m, h) (flat rs) <-> exists t, In (p, t) rs /\ In (m, h) t.
Proof.
  intros rs p m h. unfold flat. rewrite in_flat_map. split.
  - intros ([k t] & H1 & H2). apply in_map_iff in H2. destruct H2 as ([m' h'] & E & H2). injection E as -> -> ->. exists t. auto.
  - intros (t & H1 & H2). exists (p, t). split; [exact H1|]. apply in_map_iff. exists (m, h). auto.
Qed.
Lemma flat_keys : forall rs p m, In (p, m) (map fst (flat rs)) <-> exists t h, In (p, t) rs /\ In (m, h) t.
Proof.
  intros rs p m. rewrite in_map_iff. split.
  - intros ([[p' m'] h] & E & H). injection E as -> ->. apply in_flat in H. destruct H as (t & H1 & H2). exists t, h. auto.
  - intros (t & h & H1 & H2). exists (p, m, h). split; [reflexivity|]. apply in_flat. exists t. auto.
Qed.
Lemma rt_get_in : forall (rs : list (bytes * mtable)) p t, NoDup (map fst rs) -> (rt_get rs p = Some t <-> In (p, t) rs).
Proof.
  induction rs as [|[k t0] rs IH]; intros p t Hn; cbn [rt_get In map fst] in *; [split; [discriminate|tauto]|].
  inversion Hn as [|? ? N1 N2]; subst. destruct (beqb k p) eqn:E.
  - apply beqb_eq in E. subst. split; [intros H; injection H as ->; left; reflexivity|]. intros [H|H]; [congruence|].
    exfalso. apply N1. apply (in_map fst) in H. exact H.
  - rewrite IH by exact N2. apply beqb_neq in E. split; [auto|]. intros [H|H]; [congruence|exact H].
Qed.
Lemma routes_add_spec : forall rs p m h, wf rs ->
  match routes_add rs p m h with
  | Some rs' => wf rs' /\ Permutation (flat rs') ((p, m, h) :: flat rs) /\ ~ In (p, m) (map fst (flat rs))
  | None => In (p, m) (map fst (flat rs))
  end.
Proof.
  intros rs p m h (W1 & W2 & W3). unfold routes_add. destruct (rt_get rs p) as [t|] eqn:E.
  - destruct (rt_split _ _ _ E) as (a & b & -> & Ha & Hs). destruct (mt_get t m) as [h0|] eqn:Em.
    + destruct (in_dec method_eq_dec m (map fst t)) as [Hi|Hi]; [|apply mt_get_in in Hi; congruence].
      apply in_map_iff in Hi. destruct Hi as ([m' h'] & E2 & Hi). cbn in E2. subst m'. apply flat_keys. exists t, h'.
      split; [apply in_or_app; right; left; reflexivity|exact Hi].
    + rewrite Hs. apply mt_get_in in Em.
      assert (Hni : ~ In (p, m) (map fst (flat (a ++ (p, t) :: b)))).
      { intros H. apply flat_keys in H. destruct H as (t' & h' & H1 & H2).
        assert (t' = t). { apply rt_get_in in H1; [congruence|exact W1]. } subst. apply Em. apply (in_map fst) in H2. exact H2. }
      assert (HP : Permutation (flat (a ++ (p, t ++ [(m, h)]) :: b)) ((p, m, h) :: flat (a ++ (p, t) :: b))).
      { rewrite !flat_app. cbn [flat flat_map fst snd]. change (flat_map _ b) with (flat b). rewrite map_app. cbn [map fst snd].
        rewrite <- !app_assoc. cbn [app]. rewrite !app_assoc. symmetry. apply Permutation_middle. }
      split; [|split; [exact HP|exact Hni]]. split; [|split].
      * rewrite map_app in *. exact W1.
      * apply Forall_app in W2. destruct W2 as [F1 F2]. inversion F2; subst. apply Forall_app. split; [exact F1|]. constructor; [|assumption].
        cbn. destruct t; discriminate.
      * apply (Permutation_map fst) in HP. apply (Permutation_NoDup (Permutation_sym HP)). cbn [map fst]. constructor; assumption.
  - cbn [mt_get]. rewrite rt_set_new by exact E. cbn [app].
    assert (Hni : ~ In (p, m) (map fst (flat rs))).
    { intros H. apply flat_keys in H. destruct H as (t' & h' & H1 & _). apply rt_get_none in E. apply E. apply (in_map fst) in H1. exact H1. }
    assert (HP : Permutation (flat (rs ++ [(p, [(m, h)])])) ((p, m, h) :: flat rs)).
    { rewrite flat_app. cbn [flat flat_map map app fst snd]. symmetry. apply Permutation_cons_append. }
    split; [|split; [exact HP|exact Hni]]. split; [|split].
    + rewrite map_app. cbn [map fst]. apply (Permutation_NoDup (Permutation_cons_append _ _)). constructor; [|exact W1].
      apply rt_get_none. exact E.
    + apply Forall_app. split; [exact W2|]. constructor; [discriminate|constructor].
    + apply (Permutation_map fst) in HP. apply (Permutation_NoDup (Permutation_sym HP)). cbn [map fst]. constructor; assumption.
Qed.
Lemma NoDup_app_l : forall A (l l' : list A), NoDup (l ++ l') -> NoDup l.
Proof. intros A l l'. induction l as [|a l IH]; cbn [app]; intros H; [constructor|]. inversion H; subst. constructor; [|auto].
  intros Hi. apply H2. apply in_or_app. auto. Qed.
Lemma NoDup_app_r : forall A (l l' : list A), NoDup (l ++ l') -> NoDup l'.
Proof. intros A l l'. induction l as [|a l IH]; cbn [app]; intros H; [exact H|]. inversion H; auto. Qed.
Lemma NoDup_app_disj : forall A (l l' : list A) x, NoDup (l ++ l') -> In x l -> In x l' -> False.
Proof. intros A l l' x. induction l as [|a l IH]; cbn [app]; intros H H1 H2; [destruct H1|]. inversion H; subst.
  destruct H1 as [-> |H1]; [|auto]. apply H4. apply in_or_app. auto. Qed.
Lemma merge_table_spec : forall t p rs, wf rs ->
  match merge_table p t rs with
  | Some rs' => wf rs' /\ Permutation (flat rs') (flat [(p, t)] ++ flat rs)
  | None => ~ NoDup (map fst (flat [(p, t)] ++ flat rs))
  end.
Proof.
  induction t as [|[m h] t IH]; intros p rs Hw; cbn [merge_table]; [cbn; auto|].
  pose proof (routes_add_spec rs p m h Hw) as H. destruct (routes_add rs p m h) as [rs1|].
  - destruct H as (H1 & H2 & H3). specialize (IH p rs1 H1).
    assert (HP : Permutation (flat [(p, t)] ++ flat rs1) (flat [(p, (m, h) :: t)] ++ flat rs)).
    { cbn [flat flat_map fst snd map app]. rewrite !app_nil_r.
      eapply Permutation_trans; [apply Permutation_app_head; exact H2|]. symmetry. apply (Permutation_middle (map _ t)). }
    destruct (merge_table p t rs1) as [rs'|].
    + destruct IH as [I1 I2]. split; [exact I1|]. eapply Permutation_trans; [exact I2|exact HP].
    + intros Hn. apply IH. eapply Permutation_NoDup; [apply Permutation_map; apply Permutation_sym; exact HP|exact Hn].
  - intros Hn. rewrite map_app in Hn. eapply NoDup_app_disj; [exact Hn| |exact H]. cbn. left. reflexivity.
Qed.
Lemma merge_routes_spec : forall l rs, wf rs ->
  match merge_routes l rs with
  | Some rs' => wf rs' /\ Permutation (flat rs') (flat l ++ flat rs)
  | None => ~ NoDup (map fst (flat l ++ flat rs))
  end.
Proof.
  induction l as [|[p t] l IH]; intros rs Hw; cbn [merge_routes]; [cbn; auto|].
  pose proof (merge_table_spec t p rs Hw) as H. change ((p, t) :: l) with ([(p, t)] ++ l). rewrite flat_app.
  destruct (merge_table p t rs) as [rs1|].
  - destruct H as (H1 & H2). specialize (IH rs1 H1).
    assert (HP : Permutation (flat l ++ flat rs1) ((flat [(p, t)] ++ flat l) ++ flat rs)).
    { eapply Permutation_trans; [apply Permutation_app_head; exact H2|]. rewrite !app_assoc. apply Permutation_app_tail. apply Permutation_app_comm. }
    destruct (merge_routes l rs1) as [rs'|].
    + destruct IH as [I1 I2]. split; [exact I1|]. eapply Permutation_trans; [exact I2|exact HP].
    + intros Hn. apply IH. eapply Permutation_NoDup; [apply Permutation_map; apply Permutation_sym; exact HP|exact Hn].
  - intros Hn. apply H. rewrite !map_app in *. rewrite <- app_assoc in Hn.
    eapply NoDup_app_r. eapply Permutation_NoDup; [|exact Hn].
    rewrite app_assoc. eapply Permutation_trans; [apply Permutation_app_tail; apply Permutation_app_comm|]. rewrite <- app_assoc. apply Permutation_refl.
Qed.

(* ---- the tree of groups ---- *)
Lemma router_ind2 : forall (Q : router -> Prop), (forall g, (forall c, In c (g_children g) -> Q c) -> Q g) -> forall g, Q g.
Proof.
  intros Q H. fix IH 1. intros [p mu ca mw re ch]. apply H. cbn [g_children].
  induction ch as [|c ch IHc]; intros c0 H0; [destruct H0|].
  destruct H0 as [H0|H0]; [rewrite <- H0; apply IH|apply IHc; exact H0].
Qed.
Definition wrap {K : Type} (ms : list middleware) (l : list (K * handler)) : list (K * handler) :=
  map (fun e => (fst e, compose (snd e) ms)) l.
Fixpoint collect {K : Type} (F : router -> list (K * handler)) (g : router) : list (K * handler) :=
  let 'Router p mu ca mw re ch := g in
  wrap mw (F g ++ flat_map (collect F) ch).
Lemma collect_eq : forall K (F : router -> list (K * handler)) g,
  collect F g = wrap (g_mws g) (F g ++ flat_map (collect F) (g_children g)).
Proof. intros K F [p mu ca mw re ch]. reflexivity. Qed.
Fixpoint mutators_of (g : router) : list mutator :=
  let 'Router p mu ca mw re ch := g in mu ++ flat_map mutators_of ch.
Fixpoint dyn (g : router) : bool :=
  let 'Router p mu ca mw re ch := g in rg_dynamic re || existsb dyn ch.
Definition routes_in (g : router) : list item := flat (rg_routes (g_reg g)).
Fixpoint sub (g : router) (addr : list nat) : option router :=
  match addr with
  | [] => Some g
  | i :: addr' => match nth_error (g_children g) i with Some c => sub c addr' | None => None end
  end.
Lemma wrap_keys : forall K ms (l : list (K * handler)), map fst (wrap ms l) = map fst l.
Proof. intros K ms l. unfold wrap. rewrite map_map. apply map_ext. reflexivity. Qed.
Lemma wrap_app : forall K ms (l l' : list (K * handler)), wrap ms (l ++ l') = wrap ms l ++ wrap ms l'.
Proof. intros. apply map_app. Qed.
Lemma wrap_perm : forall K ms (l l' : list (K * handler)), Permutation l l' -> Permutation (wrap ms l) (wrap ms l').
Proof. intros. apply Permutation_map. assumption. Qed.
Lemma flat_apply : forall f g, flat (rg_routes (reg_apply f g)) = map (fun e => (fst e, f (snd e))) (flat (rg_routes g)).
Proof.
  intros f [rs d]. unfold reg_apply, flat. cbn [rg_routes]. induction rs as [|[p t] rs IH]; [reflexivity|].
  cbn [map flat_map fst snd]. rewrite map_app, <- IH. f_equal. rewrite !map_map. reflexivity.
Qed.
Lemma wf_apply : forall f g, wf (rg_routes g) -> wf (rg_routes (reg_apply f g)).
Proof.
  intros f g (W1 & W2 & W3). split; [|split].
  - cbn [reg_apply rg_routes]. rewrite map_map. exact W1.
  - cbn [reg_apply rg_routes]. apply Forall_map. eapply Forall_impl; [|exact W2]. intros [p t] H. cbn in *. destruct t; [contradiction|discriminate].
  - rewrite flat_apply, map_map. exact W3.
Qed.
Definition all_wf (g : router) : Prop := forall addr c, sub g addr = Some c -> wf (rg_routes (g_reg c)).
Lemma all_wf_child : forall g c, all_wf g -> In c (g_children g) -> all_wf c.
Proof.
  intros g c H Hi addr c' Hs. apply In_nth_error in Hi. destruct Hi as (i & Hi). apply (H (i :: addr)). cbn [sub]. rewrite Hi. exact Hs.
Qed.
Lemma prepare_spec : forall g, all_wf g ->
  match prepare g with
  | Some g' => wf (rg_routes (g_reg g')) /\ Permutation (routes_in g') (collect routes_in g) /\
      g_catchers g' = collect (@g_catchers W) g /\ g_mutators g' = mutators_of g /\ rg_dynamic (g_reg g') = dyn g
  | None => ~ NoDup (map fst (collect routes_in g))
  end.
Proof.
  induction g as [g IH] using router_ind2. intros Hw. destruct g as [p mu ca mw re ch]. cbn [g_children] in IH.
  cbn [prepare]. set (step := fun acc c => _).
  assert (Hre : wf (rg_routes re)) by (apply (Hw [] _ eq_refl)).
  assert (Hch : forall c, In c ch -> all_wf c) by (intros c Hc; eapply all_wf_child; [exact Hw|exact Hc]).
  assert (K : forall ch, (forall c, In c ch -> match prepare c with
     | Some g' => wf (rg_routes (g_reg g')) /\ Permutation (routes_in g') (collect routes_in c) /\
         g_catchers g' = collect (@g_catchers W) c /\ g_mutators g' = mutators_of c /\ rg_dynamic (g_reg g') = dyn c
     | None => ~ NoDup (map fst (collect routes_in c)) end) ->
     forall re mu ca dn, wf (rg_routes re) ->
     match fold_left step (map prepare ch) (Some (re, mu, ca, dn)) with
     | Some (re', mu', ca', dn') => wf (rg_routes re') /\ Permutation (flat (rg_routes re')) (flat (rg_routes re) ++ flat_map (collect routes_in) ch) /\
         ca' = ca ++ flat_map (collect (@g_catchers W)) ch /\ mu' = mu ++ flat_map mutators_of ch /\ rg_dynamic re' = rg_dynamic re || existsb dyn ch
     | None => ~ NoDup (map fst (flat (rg_routes re) ++ flat_map (collect routes_in) ch))
     end).
  { clear. induction ch as [|c ch IHch]; intros Hc re mu ca dn Hre; cbn [map fold_left flat_map existsb].
    - rewrite !app_nil_r, orb_false_r. auto.
    - pose proof (Hc c (or_introl eq_refl)) as H0.
      assert (HN : forall l, fold_left step l None = None) by (induction l as [|x l IHl]; [reflexivity|cbn [fold_left]; exact IHl]).
      destruct (prepare c) as [c'|].
      + destruct H0 as (A1 & A2 & A3 & A4 & A5). cbn [step]. unfold reg_merge.
        pose proof (merge_routes_spec (rg_routes (g_reg c')) (rg_routes re) Hre) as HM.
        assert (HP : Permutation (flat (rg_routes (g_reg c')) ++ flat (rg_routes re)) (flat (rg_routes re) ++ collect routes_in c)).
        { eapply Permutation_trans; [apply Permutation_app_comm|]. apply Permutation_app_head. exact A2. }
        destruct (merge_routes (rg_routes (g_reg c')) (rg_routes re)) as [rs|].
        * destruct HM as [M1 M2].
          specialize (IHch (fun c H => Hc c (or_intror H)) (Registrar rs (rg_dynamic re || rg_dynamic (g_reg c'))) (mu ++ g_mutators c') (ca ++ g_catchers c') (dn ++ [c']) M1).
          cbn [rg_routes rg_dynamic] in IHch.
          assert (HP2 : Permutation (flat rs ++ flat_map (collect routes_in) ch) (flat (rg_routes re) ++ collect routes_in c ++ flat_map (collect routes_in) ch)).
          { rewrite app_assoc. apply Permutation_app_tail. eapply Permutation_trans; [exact M2|exact HP]. }
          destruct (fold_left step (map prepare ch) _) as [[[[re' mu'] ca'] dn']|].
          -- destruct IHch as (I1 & I2 & I3 & I4 & I5). split; [exact I1|]. split; [eapply Permutation_trans; [exact I2|exact HP2]|].
             rewrite I3, I4, I5, A3, A4, A5, <- !app_assoc, orb_assoc. auto.
          -- intros Hn. apply IHch. eapply Permutation_NoDup; [apply Permutation_map; apply Permutation_sym; exact HP2|exact Hn].
        * rewrite HN. intros Hn. apply HM. rewrite app_assoc, map_app in Hn. apply NoDup_app_l in Hn.
          eapply Permutation_NoDup; [apply Permutation_map; apply Permutation_sym; exact HP|exact Hn].
      + cbn [step]. rewrite HN. intros Hn. apply H0. rewrite !map_app in Hn. apply NoDup_app_r in Hn. apply NoDup_app_l in Hn. exact Hn. }
  specialize (K ch (fun c Hc => IH c Hc (Hch c Hc)) re mu ca [] Hre).
  destruct (fold_left step (map prepare ch) (Some (re, mu, ca, []))) as [[[[re' mu'] ca'] dn']|].
  - destruct K as (K1 & K2 & K3 & K4 & K5). cbn [g_reg g_catchers g_mutators collect mutators_of dyn].
    split; [apply wf_apply; exact K1|]. split; [|split; [|split]].
    + unfold routes_in at 1. cbn [g_reg]. rewrite flat_apply. apply wrap_perm. exact K2.
    + rewrite K3. reflexivity.
    + exact K4.
    + exact K5.
  - cbn [collect]. rewrite wrap_keys. exact K.
Qed.
End Router.
