(* Registration: what the tree of groups holds after a list of calls. *)
From Coq Require Import Permutation Sorted.
From Verif Require Import M_Base M_Status M_Method M_KeyValue M_Request M_Response M_Suit M_Path M_Radix M_Router S_Routes S_Router
  L_Base L_Path L_Router.

Section Router.
Variable W : Type.
Notation handler := (handler W). Notation middleware := (middleware W). Notation rop := (rop W).
Notation catcher := (catcher W). Notation mtable := (mtable W). Notation router := (router W).
Notation ops := (list (list nat * rop)).
Notation sub := (sub W). Notation wrap := (wrap W). Notation flat := (flat W).

Lemma addr_eqb_eq : forall a b, addr_eqb a b = true <-> a = b.
Proof. intros a b. unfold addr_eqb. destruct (list_eq_dec Nat.eq_dec a b); split; congruence. Qed.
Lemma addr_eqb_refl : forall a, addr_eqb a a = true.
Proof. intros a. apply addr_eqb_eq. reflexivity. Qed.
Lemma addr_eqb_neq : forall a b, a <> b -> addr_eqb a b = false.
Proof. intros a b H. unfold addr_eqb. destruct (list_eq_dec Nat.eq_dec a b); congruence. Qed.

(* ---- one call ---- *)
Definition same_own (c c' : router) : Prop :=
  g_prefix c = g_prefix c' /\ g_mutators c = g_mutators c' /\ g_catchers c = g_catchers c' /\ g_mws c = g_mws c' /\
  g_reg c = g_reg c' /\ List.length (g_children c) = List.length (g_children c').
Lemma same_own_refl : forall c, same_own c c.
Proof. intros c. unfold same_own. auto 10. Qed.
Lemma nth_replaced : forall A (l : list A) i x y j, nth_error l i = Some x ->
  nth_error (firstn i l ++ y :: skipn (S i) l) j = if Nat.eqb j i then Some y else nth_error l j.
Proof.
  intros A. induction l as [|a l IH]; intros [|i] x y j H; try discriminate.
  - cbn [firstn skipn app]. destruct j; reflexivity.
  - cbn [nth_error] in H. change (firstn (S i) (a :: l)) with (a :: firstn i l). change (skipn (S (S i)) (a :: l)) with (skipn (S i) l).
    destruct j as [|j]; [reflexivity|]. cbn [app nth_error Nat.eqb]. apply IH with (x := x). exact H.
Qed.
Lemma length_replaced : forall A (l : list A) i x y, nth_error l i = Some x ->
  List.length (firstn i l ++ y :: skipn (S i) l) = List.length l.
Proof.
  intros A. induction l as [|a l IH]; intros [|i] x y H; try discriminate; [reflexivity|].
  cbn [nth_error] in H. change (firstn (S i) (a :: l)) with (a :: firstn i l). change (skipn (S (S i)) (a :: l)) with (skipn (S i) l).
  cbn [app List.length]. f_equal. eapply IH. exact H.
Qed.
Lemma group_children : forall o (c c' : router), group_op o c = Some c' ->
  g_children c' = g_children c ++ match o with Group p => [new_group (g_prefix c ++ p)] | _ => [] end.
Proof.
  intros o [p mu ca mw re ch] c' H. destruct o; cbn [group_op g_children g_prefix] in *.
  - destruct (reg_add _ _ _ _); [|discriminate]. injection H as <-. cbn. rewrite app_nil_r. reflexivity.
  - injection H as <-. cbn. rewrite app_nil_r. reflexivity.
  - destruct (existsb _ _); [discriminate|]. injection H as <-. cbn. rewrite app_nil_r. reflexivity.
  - injection H as <-. cbn. rewrite app_nil_r. reflexivity.
  - injection H as <-. cbn. rewrite app_nil_r. reflexivity.
  - injection H as <-. reflexivity.
  - injection H as <-. cbn. rewrite app_nil_r. reflexivity.
Qed.
Lemma op_at_sub : forall addr o g g', op_at addr o g = Some g' ->
  exists c c', sub g addr = Some c /\ group_op o c = Some c' /\ sub g' addr = Some c' /\
    forall a d, a <> addr -> sub g' a = Some d ->
      (exists d0, sub g a = Some d0 /\ same_own d0 d) \/
      (exists p, o = Group p /\ a = addr ++ [List.length (g_children c)] /\ d = new_group (g_prefix c ++ p)).
Proof.
  induction addr as [|i addr IH]; intros o g g' H.
  - cbn [op_at] in H. exists g, g'. split; [reflexivity|]. split; [exact H|]. split; [reflexivity|].
    intros a d Ha Hd. destruct a as [|j a]; [contradiction|]. cbn [L_Router.sub] in *. rewrite (group_children _ _ _ H) in Hd.
    destruct (nth_error (g_children g) j) as [x|] eqn:E.
    + rewrite nth_error_app1 in Hd by (apply nth_error_Some; congruence). rewrite E in Hd. left. exists d. split; [exact Hd|apply same_own_refl].
    + apply nth_error_None in E. rewrite nth_error_app2 in Hd by exact E. destruct o; try (destruct (j - _)%nat; discriminate Hd).
      destruct (j - List.length (g_children g))%nat as [|k] eqn:Ek; [|destruct k; discriminate Hd]. cbn [nth_error] in Hd.
      right. exists prefix. split; [reflexivity|]. destruct a as [|k a].
      * cbn in Hd. injection Hd as <-. split; [|reflexivity]. cbn. f_equal. lia.
      * cbn in Hd. destruct k; discriminate Hd.
  - destruct g as [p mu ca mw re ch]. cbn [op_at] in H. destruct (nth_error ch i) as [x|] eqn:E; [|discriminate].
    destruct (op_at addr o x) as [x'|] eqn:Ex; [|discriminate]. injection H as <-.
    destruct (IH o x x' Ex) as (c & c' & I1 & I2 & I3 & I4). exists c, c'. cbn [L_Router.sub g_children]. rewrite E.
    split; [exact I1|]. split; [exact I2|]. rewrite (nth_replaced _ _ _ _ _ _ E), Nat.eqb_refl. split; [exact I3|].
    intros a d Ha Hd. destruct a as [|j a].
    + cbn in Hd. injection Hd as <-. left. eexists. split; [reflexivity|]. unfold same_own. cbn.
      repeat (split; [reflexivity|]). symmetry. eapply length_replaced. exact E.
    + cbn [L_Router.sub g_children] in Hd |- *. rewrite (nth_replaced _ _ _ _ _ _ E) in Hd. destruct (Nat.eqb j i) eqn:Ej.
      * apply Nat.eqb_eq in Ej. subst j. rewrite E. destruct (I4 a d) as [(d0 & D1 & D2)|(q & Q1 & Q2 & Q3)]; [congruence|exact Hd| |].
        -- left. exists d0. auto.
        -- right. exists q. split; [exact Q1|]. split; [rewrite Q2; reflexivity|exact Q3].
      * destruct (nth_error ch j) as [y|]; [|discriminate]. left. exists d. split; [exact Hd|apply same_own_refl].
Qed.
Lemma op_at_some : forall addr o g g' a d, op_at addr o g = Some g' -> sub g a = Some d -> exists d', sub g' a = Some d'.
Proof.
  induction addr as [|i addr IH]; intros o g g' a d H Hd.
  - cbn [op_at] in H. destruct a as [|j a]; [exists g'; reflexivity|]. cbn [L_Router.sub] in *. rewrite (group_children _ _ _ H).
    destruct (nth_error (g_children g) j) as [x|] eqn:E; [|discriminate].
    rewrite nth_error_app1 by (apply nth_error_Some; congruence). rewrite E. exists d. exact Hd.
  - destruct g as [p mu ca mw re ch]. cbn [op_at] in H. destruct (nth_error ch i) as [x|] eqn:E; [|discriminate].
    destruct (op_at addr o x) as [x'|] eqn:Ex; [|discriminate]. injection H as <-. destruct a as [|j a]; [eexists; reflexivity|].
    cbn [L_Router.sub g_children] in *. rewrite (nth_replaced _ _ _ _ _ _ E). destruct (Nat.eqb j i) eqn:Ej.
    + apply Nat.eqb_eq in Ej. subst j. rewrite E in Hd. apply (IH o x x' a d Ex Hd).
    + exists d. exact Hd.
Qed.

(* ---- the items of one call ---- *)
Definition route_items (pfx : bytes) (o : rop) : list (bytes * method * handler) :=
  match o with Route m p h ms => [(normalize (pfx ++ p), m, behind ms h)] | _ => [] end.
Definition catch_items (pfx : bytes) (o : rop) : list (bytes * handler) :=
  match o with Catch p h ms => [(path_join pfx p, behind ms h)] | _ => [] end.
Definition mutator_items (pfx : bytes) (o : rop) : list mutator :=
  match o with Mutate mu => [mu] | Alias from to => [alias (path_join pfx from) to] | _ => [] end.

Definition OwnOk (os : ops) (addr : list nat) (c : router) : Prop :=
  g_prefix c = full_prefix os addr /\
  g_mws c = uses os addr /\
  List.length (g_children c) = List.length (kids os addr) /\
  g_catchers c = flat_map (catch_items (full_prefix os addr)) (calls os addr) /\
  g_mutators c = flat_map (mutator_items (full_prefix os addr)) (calls os addr) /\
  wf W (rg_routes (g_reg c)) /\
  Permutation (flat (rg_routes (g_reg c))) (flat_map (route_items (full_prefix os addr)) (calls os addr)) /\
  Forall (fun e => exists t, tparse (fst (fst e)) = inr t) (flat (rg_routes (g_reg c))) /\
  (rg_dynamic (g_reg c) = true <-> exists e t name, In e (flat (rg_routes (g_reg c))) /\ tparse (fst (fst e)) = inr t /\ In (SWild name) t).
Definition Inv (os : ops) (g : router) : Prop :=
  (forall addr c, sub g addr = Some c -> OwnOk os addr c) /\
  (forall x, In x os -> sub g (fst x) <> None).

Lemma calls_snoc : forall (os : ops) a o addr, calls (os ++ [(a, o)]) addr = calls os addr ++ if addr_eqb a addr then [o] else [].
Proof.
  intros os a o addr. unfold calls. rewrite filter_app, map_app. f_equal. cbn [filter fst]. destruct (addr_eqb a addr); reflexivity.
Qed.
Lemma calls_other : forall (os : ops) a o addr, a <> addr -> calls (os ++ [(a, o)]) addr = calls os addr.
Proof. intros os a o addr H. rewrite calls_snoc, addr_eqb_neq by exact H. apply app_nil_r. Qed.
Lemma calls_same : forall (os : ops) a o, calls (os ++ [(a, o)]) a = calls os a ++ [o].
Proof. intros os a o. rewrite calls_snoc, addr_eqb_refl. reflexivity. Qed.
Lemma kids_snoc : forall (os : ops) a o addr, exists l, kids (os ++ [(a, o)]) addr = kids os addr ++ l.
Proof. intros os a o addr. unfold kids. rewrite calls_snoc, flat_map_app. eexists. reflexivity. Qed.

Lemma sub_snoc : forall a g i, sub g (a ++ [i]) = match sub g a with Some c => nth_error (g_children c) i | None => None end.
Proof.
  induction a as [|j a IH]; intros g i; cbn [app L_Router.sub].
  - destruct (nth_error (g_children g) i); reflexivity.
  - destruct (nth_error (g_children g) j); [apply IH|reflexivity].
Qed.
Lemma sub_app : forall a b g, sub g (a ++ b) = match sub g a with Some c => sub c b | None => None end.
Proof.
  induction a as [|j a IH]; intros b g; cbn [app L_Router.sub]; [reflexivity|].
  destruct (nth_error (g_children g) j); [apply IH|reflexivity].
Qed.
Lemma prefix_snoc : forall (os : ops) a pre i, prefix_below os pre (a ++ [i]) = prefix_below os pre a ++ nth i (kids os (pre ++ a)) [].
Proof.
  intros os. induction a as [|j a IH]; intros pre i; cbn [app prefix_below].
  - rewrite !app_nil_r. reflexivity.
  - rewrite IH, app_assoc. rewrite <- (app_assoc pre). reflexivity.
Qed.
Lemma prefix_stable : forall os g a o, Inv os g -> forall addr c, sub g addr = Some c ->
  full_prefix (os ++ [(a, o)]) addr = full_prefix os addr.
Proof.
  intros os g a o [HI _]. induction addr as [|i addr IH] using rev_ind; intros c Hc; [reflexivity|].
  rewrite sub_snoc in Hc. destruct (sub g addr) as [d|] eqn:Ed; [|discriminate]. specialize (IH d eq_refl). unfold full_prefix in *.
  rewrite !prefix_snoc, IH. f_equal. cbn [app]. destruct (kids_snoc os a o addr) as (l & ->). apply app_nth1.
  destruct (HI addr d Ed) as (_ & _ & HL & _). rewrite <- HL. apply nth_error_Some. congruence.
Qed.
Lemma is_static_false : forall t, is_static t = false <-> exists name, In (SWild name) t.
Proof.
  induction t as [|s t IH]; cbn [is_static forallb In]; [split; [discriminate|intros (? & [])]|].
  destruct s as [s|w]; cbn [andb].
  - unfold is_static in IH. rewrite IH. split; intros (n & H); exists n; [auto|]. destruct H as [H|H]; [discriminate|exact H].
  - split; [intros _; exists w; auto|reflexivity].
Qed.
Lemma behind_compose : forall ms (h : handler), behind ms h = compose h ms.
Proof. reflexivity. Qed.
Lemma own_ok_new : forall (os : ops) addr, calls os addr = [] -> OwnOk os addr (new_group (full_prefix os addr)).
Proof.
  intros os addr H. unfold OwnOk, uses, kids. rewrite H. cbn. do 5 (split; [reflexivity|]).
  split; [repeat split; constructor|]. split; [constructor|]. split; [constructor|]. split; [discriminate|]. intros (e & t & n & [] & _).
Qed.
Lemma inv_start : Inv [] (new_group []).
Proof.
  split; [|intros x []]. intros addr c H. destruct addr as [|i addr]; [|cbn in H; destruct i; discriminate].
  injection H as <-. apply (own_ok_new [] []). reflexivity.
Qed.
Lemma own_ok_other : forall os g a o addr c, Inv os g -> a <> addr -> sub g addr = Some c -> OwnOk os addr c -> OwnOk (os ++ [(a, o)]) addr c.
Proof.
  intros os g a o addr c HI Hne Hs H. unfold OwnOk, uses, kids in *. rewrite !calls_other by exact Hne.
  rewrite (prefix_stable os g a o HI addr c Hs). exact H.
Qed.
Lemma own_ok_same : forall os addr c c', same_own c c' -> OwnOk os addr c -> OwnOk os addr c'.
Proof. intros os addr c c' (S1 & S2 & S3 & S4 & S5 & S6). unfold OwnOk. rewrite S1, S2, S3, S4, S5, S6. auto. Qed.
Lemma group_op_ok : forall os g a o c c', Inv os g -> sub g a = Some c -> OwnOk os a c -> group_op o c = Some c' -> OwnOk (os ++ [(a, o)]) a c'.
Proof.
  intros os g a o c c' HI Hs (O1 & O2 & O3 & O4 & O5 & O6 & O7 & O8 & O9) H.
  pose proof (group_children _ _ _ H) as Hch.
  unfold OwnOk, uses, kids in *. rewrite !calls_same, (prefix_stable os g a o HI a c Hs), !flat_map_app.
  assert (L : List.length (g_children c') = List.length (flat_map (fun o => match o with Group p => [p] | _ => [] end) (calls os a) ++
            flat_map (fun o => match o with Group p => [p] | _ => [] end) [o])).
  { rewrite Hch, !app_length, O3. f_equal. destruct o; reflexivity. }
  destruct c as [p mu ca mw re ch]. cbn [g_prefix g_mutators g_catchers g_mws g_reg g_children] in *.
  destruct o; cbn [group_op] in H; cbn [flat_map route_items catch_items mutator_items app] in *; rewrite ?app_nil_r in *.
  - unfold reg_add in H. pose proof (routes_add_spec W (rg_routes re) (normalize (p ++ path)) m (compose h mws) O6) as HA.
    destruct (routes_add (rg_routes re) (normalize (p ++ path)) m (compose h mws)) as [rs|]; [|discriminate]. destruct HA as (A1 & A2 & A3).
    destruct (tparse (normalize (p ++ path))) as [e|t] eqn:Et; [discriminate|]. injection H as <-.
    cbn [g_prefix g_mutators g_catchers g_mws g_reg g_children rg_routes rg_dynamic].
    split; [exact O1|]. split; [exact O2|]. split; [exact L|]. split; [exact O4|]. split; [exact O5|]. split; [exact A1|].
    split; [|split].
    + rewrite <- O1 in *. eapply Permutation_trans; [exact A2|]. eapply Permutation_trans; [|apply Permutation_cons_append].
      apply perm_skip. exact O7.
    + eapply Permutation_Forall; [apply Permutation_sym; exact A2|]. constructor; [exists t; exact Et|exact O8].
    + rewrite orb_true_iff, negb_true_iff, O9, is_static_false.
      assert (HE : forall e, In e (flat rs) <-> e = (normalize (p ++ path), m, compose h mws) \/ In e (flat (rg_routes re))).
      { intros e. split; intros He.
        - apply (Permutation_in _ A2) in He. destruct He as [He|He]; auto.
        - apply (Permutation_in _ (Permutation_sym A2)). destruct He as [-> |He]; [left; reflexivity|right; exact He]. }
      split.
      * intros [(e & t' & n & E1 & E2)|(n & E)]; [exists e, t', n; rewrite HE; auto|].
        exists (normalize (p ++ path), m, compose h mws), t, n. rewrite HE. auto.
      * intros (e & t' & n & E1 & E2 & E3). apply HE in E1. destruct E1 as [-> |E1]; [right|left; exists e, t', n; auto].
        cbn [fst] in E2. rewrite Et in E2. injection E2 as ->. exists n. exact E3.
  - injection H as <-. cbn [g_prefix g_mutators g_catchers g_mws g_reg g_children]. rewrite O2. repeat (split; [assumption || reflexivity|]). exact O9.
  - rewrite <- O1 in *. destruct (existsb (fun c => beqb (fst c) (path_join p prefix)) ca); [discriminate|]. injection H as <-.
    cbn [g_prefix g_mutators g_catchers g_mws g_reg g_children]. rewrite O4. repeat (split; [assumption || reflexivity|]). exact O9.
  - injection H as <-. cbn [g_prefix g_mutators g_catchers g_mws g_reg g_children]. rewrite O5. repeat (split; [assumption || reflexivity|]). exact O9.
  - rewrite <- O1 in *. injection H as <-. cbn [g_prefix g_mutators g_catchers g_mws g_reg g_children]. rewrite O5. repeat (split; [assumption || reflexivity|]). exact O9.
  - injection H as <-. cbn [g_prefix g_mutators g_catchers g_mws g_reg g_children] in *. repeat (split; [assumption|]). exact O9.
  - injection H as <-. cbn [g_prefix g_mutators g_catchers g_mws g_reg g_children]. repeat (split; [assumption|]). exact O9.
Qed.
(* addresses used stay below existing groups *)
Lemma no_calls_yet : forall os g a, Inv os g -> sub g a = None -> calls os a = [].
Proof.
  intros os g a [_ HI] H. unfold calls. replace (filter (fun x => addr_eqb (fst x) a) os) with (@nil (list nat * rop)); [reflexivity|].
  symmetry. assert (K : forall x, In x os -> addr_eqb (fst x) a = false).
  { intros x Hx. apply addr_eqb_neq. intros E. apply (HI x Hx). rewrite E. exact H. }
  clear HI. induction os as [|y os IH]; [reflexivity|]. cbn [filter]. rewrite (K y (or_introl eq_refl)). apply IH. intros x Hx. apply K. right. exact Hx.
Qed.
Lemma inv_step : forall os g a o g', Inv os g -> op_at a o g = Some g' -> Inv (os ++ [(a, o)]) g'.
Proof.
  intros os g a o g' HI H. pose proof HI as [HI1 HI2]. destruct (op_at_sub _ _ _ _ H) as (c & c' & S1 & S2 & S3 & S4). split.
  - intros addr d Hd. destruct (list_eq_dec Nat.eq_dec addr a) as [-> |Hne].
    + rewrite S3 in Hd. injection Hd as <-. eapply group_op_ok; eauto.
    + destruct (S4 addr d Hne Hd) as [(d0 & D1 & D2)|(p & -> & -> & ->)].
      * eapply own_ok_same; [exact D2|]. apply (own_ok_other os g); auto.
      * assert (Hnone : sub g (a ++ [List.length (g_children c)]) = None).
        { rewrite sub_snoc, S1. apply nth_error_None. lia. }
        assert (Hp : full_prefix (os ++ [(a, Group p)]) (a ++ [List.length (g_children c)]) = g_prefix c ++ p).
        { unfold full_prefix. rewrite prefix_snoc. cbn [app]. rewrite (prefix_stable os g a (Group p) HI a c S1 : prefix_below _ [] a = _).
          destruct (HI1 a c S1) as (O1 & _ & O3 & _). unfold full_prefix in O1. rewrite O1. f_equal. unfold kids in *.
          rewrite calls_same, flat_map_app. rewrite app_nth2 by lia. rewrite O3, Nat.sub_diag. reflexivity. }
        rewrite <- Hp. apply own_ok_new. rewrite calls_other by (intros E; apply Hne; symmetry; exact E).
        apply (no_calls_yet _ _ _ HI Hnone).
  - intros x Hx. apply in_app_or in Hx. destruct Hx as [Hx|[<-|[]]].
    + pose proof (HI2 x Hx) as K. destruct (sub g (fst x)) as [d|] eqn:E; [|contradiction].
      destruct (op_at_some _ _ _ _ _ _ H E) as (d' & ->). discriminate.
    + cbn [fst]. rewrite S3. discriminate.
Qed.
Lemma build_snoc : forall (os : ops) x a, build (os ++ [x]) a = match build os a with Some a' => app_op x a' | None => None end.
Proof.
  induction os as [|y os IH]; intros x a; cbn [app build]; [destruct (app_op x a); reflexivity|].
  destruct (app_op y a); [apply IH|reflexivity].
Qed.
Lemma build_inv : forall (os : ops) a, build os new_app = Some a -> Inv os (a_root a).
Proof.
  induction os as [|[ad o] os IH] using rev_ind; intros a H; [injection H as <-; apply inv_start|].
  rewrite build_snoc in H. destruct (build os new_app) as [a0|]; [|discriminate]. specialize (IH a0 eq_refl).
  unfold app_op in H. cbn [fst snd] in H. destruct (op_at ad o (a_root a0)) as [g|] eqn:E; [|discriminate]. injection H as <-.
  cbn [a_root]. eapply inv_step; eassumption.
Qed.
Lemma build_errs : forall (os : ops) a, build os new_app = Some a -> forall c, et_get (a_errs a) c = handler_for os c.
Proof.
  induction os as [|[ad o] os IH] using rev_ind; intros a H c.
  - injection H as <-. unfold handler_for. cbn [fold_left new_app a_errs new_errtable et_get].
    rewrite (N.eqb_sym c AllErrors), (N.eqb_sym c 405). reflexivity.
  - rewrite build_snoc in H. destruct (build os new_app) as [a0|]; [|discriminate]. specialize (IH a0 eq_refl).
    unfold app_op in H. cbn [fst snd] in H. destruct (op_at ad o (a_root a0)) as [g|]; [|discriminate]. injection H as <-. cbn [a_errs].
    unfold handler_for. rewrite fold_left_app. cbn [fold_left snd]. fold (handler_for os c). rewrite <- IH. clear IH.
    destruct o; try reflexivity.
    assert (S : forall t k h c, et_get (@et_set W t k h) c = if (k =? c)%N then Some h else et_get t c).
    { clear. induction t as [|[k0 h0] t IH]; intros k h c; cbn [et_set et_get]; [reflexivity|].
      destruct (k0 =? k)%N eqn:E; cbn [et_get].
      - apply N.eqb_eq in E. subst. destruct (k =? c)%N; reflexivity.
      - rewrite IH. destruct (k0 =? c)%N eqn:E2; [|reflexivity]. destruct (k =? c)%N eqn:E3; [|reflexivity].
        apply N.eqb_eq in E2, E3. apply N.eqb_neq in E. congruence. }
    assert (K : forall cs t, et_get (fold_left (fun t c => et_set t c h) cs t) c = if existsb (N.eqb c) cs then Some h else et_get t c).
    { clear - S. induction cs as [|k cs IH]; intros t; [reflexivity|]. cbn [fold_left existsb]. rewrite IH, S, (N.eqb_sym c k).
      destruct (k =? c)%N; cbn [orb]; [|reflexivity]. destruct (existsb (N.eqb c) cs); reflexivity. }
    apply K.
Qed.
End Router.
