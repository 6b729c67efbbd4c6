(* Starting a router, error handlers, catchers, aliases. *)
From Coq Require Import Permutation Sorted.
From Verif Require Import M_Base M_Status M_Method M_KeyValue M_Request M_Response M_Suit M_Path M_Radix M_Router S_Routes S_Router
  L_Base L_Path L_Radix L_Router L_Router2 L_Router3 L_Router4.

Section Router.
Variable W : Type.
Notation handler := (handler W). Notation middleware := (middleware W). Notation rop := (rop W).
Notation catcher := (catcher W). Notation mtable := (mtable W). Notation router := (router W).
Notation ops := (list (list nat * rop)).
Notation flat := (flat W). Notation sub := (sub W).

(* ---- one way of starting ---- *)
Fixpoint insert_longest (c : catcher) (l : list catcher) : list catcher :=
  match l with
  | [] => [c]
  | d :: l' => if Nat.leb (List.length (fst d)) (List.length (fst c)) then c :: l else d :: insert_longest c l'
  end.
Definition longest_first (l : list catcher) : list catcher := fold_right insert_longest [] l.
Lemma insert_longest_perm : forall c l, Permutation (c :: l) (insert_longest c l).
Proof.
  intros c l. induction l as [|d l IH]; cbn [insert_longest]; [apply Permutation_refl|].
  destruct (Nat.leb _ _); [apply Permutation_refl|]. eapply Permutation_trans; [apply perm_swap|]. apply perm_skip. exact IH.
Qed.
Lemma longest_first_perm : forall l, Permutation l (longest_first l).
Proof.
  induction l as [|c l IH]; [constructor|]. cbn [longest_first fold_right]. eapply Permutation_trans; [apply perm_skip; exact IH|]. apply insert_longest_perm.
Qed.
Lemma insert_longest_sorted : forall c l, Sorted Longer l -> Sorted Longer (insert_longest c l).
Proof.
  intros c l H. induction H as [|d l Hs IH Hd]; cbn [insert_longest]; [repeat constructor|].
  destruct (Nat.leb (List.length (fst d)) (List.length (fst c))) eqn:E.
  - apply Nat.leb_le in E. constructor; [constructor; assumption|]. constructor. unfold Longer. lia.
  - apply Nat.leb_gt in E. constructor; [exact IH|]. destruct l as [|x l]; cbn [insert_longest].
    + constructor. unfold Longer. lia.
    + inversion Hd; subst. destruct (Nat.leb _ _); constructor; [unfold Longer; lia|assumption].
Qed.
Lemma longest_first_sorted : forall l, Sorted Longer (longest_first l).
Proof. induction l as [|c l IH]; [constructor|]. apply insert_longest_sorted. exact IH. Qed.
Definition start (os : ops) : option (runtime W) :=
  match build os new_app with
  | Some a =>
      match prepare (a_root a) with
      | Some g => initialize g (wrap_errs (a_errs a) (g_mws (a_root a))) (rg_routes (g_reg g)) (longest_first (g_catchers g))
      | None => None
      end
  | None => None
  end.
Lemma any_order_refl : forall l : list (bytes * mtable), AnyOrder l l.
Proof. intros l. exists l. split; [apply Permutation_refl|]. induction l; constructor; auto. Qed.
Lemma start_running : forall os x, start os = Some x -> Running os x.
Proof.
  intros os x H. unfold start in H. destruct (build os new_app) as [a|] eqn:E1; [|discriminate]. destruct (prepare (a_root a)) as [g|] eqn:E2; [|discriminate].
  exists a, g, (rg_routes (g_reg g)), (longest_first (g_catchers g)). repeat (split; [assumption|]). split; [apply any_order_refl|].
  split; [apply longest_first_perm|]. split; [apply longest_first_sorted|exact H].
Qed.
(* it starts unless routes are registered twice or wildcards at one place have different names *)
Lemma clash_iff : forall (os : ops) routes, wf W routes -> Permutation (flat routes) (registered os) ->
  (forall e, In e (registered os) -> exists t, tparse (fst (fst e)) = inr t) ->
  (as_tree routes new_tree = None <-> TemplatesClash os).
Proof.
  intros os routes R1 R2 R4.
  assert (HI : forall e, In e (flat routes) <-> In e (registered os)).
  { intros e. split; apply Permutation_in; [exact R2|apply Permutation_sym; exact R2]. }
  assert (HE : forall p t, In (p, t) routes -> exists m h, In (p, m, h) (registered os)).
  { intros p t Hi. destruct R1 as (_ & W2 & _). rewrite Forall_forall in W2. pose proof (W2 _ Hi) as Hne. cbn in Hne.
    destruct t as [|[m h] t]; [contradiction|]. exists m, h. apply HI. apply (in_flat W). exists ((m, h) :: t). split; [exact Hi|left; reflexivity]. }
  assert (HT : Forall (fun e : bytes * mtable => exists t, tparse (fst e) = inr t) routes).
  { apply Forall_forall. intros [p t] Hi. destruct (HE p t Hi) as (m & h & H1). destruct (R4 _ H1) as (u & Hu). exists u. exact Hu. }
  rewrite (as_tree_insert W _ _ HT). unfold new_tree. rewrite all_inserted.
  assert (HM : forall t, In t (map fst (tree_items W routes)) <-> exists p m h, In (p, m, h) (registered os) /\ tparse p = inr t).
  { intros t. unfold tree_items. rewrite map_map, in_map_iff. cbn [fst]. split.
    - intros ([p mt] & E & Hi). cbn [fst] in E. destruct (HE p mt Hi) as (m & h & H1). exists p, m, h. split; [exact H1|].
      destruct (R4 _ H1) as (u & Hu). cbn [fst] in Hu. unfold tpl in E. rewrite Hu in *. congruence.
    - intros (p & m & h & H1 & H2). apply HI, (in_flat W) in H1. destruct H1 as (mt & H1 & _). exists (p, mt). split; [|exact H1]. unfold tpl. cbn [fst]. rewrite H2. reflexivity. }
  unfold Clash, TemplatesClash. split.
  - intros (pre & n1 & n2 & r1 & r2 & Hd & H1 & H2). apply HM in H1, H2. destruct H1 as (p & m & h & H1 & H1'), H2 as (p' & m' & h' & H2 & H2').
    exists pre, n1, n2, r1, r2, p, m, h, p', m', h'. auto.
  - intros (pre & n1 & n2 & r1 & r2 & p & m & h & p' & m' & h' & Hd & H1 & H1' & H2 & H2'). exists pre, n1, n2, r1, r2. split; [exact Hd|].
    split; apply HM; eauto.
Qed.
Theorem starts : forall (os : ops) a, build os new_app = Some a ->
  ((exists x, Running os x) <-> NoDup (map fst (registered os)) /\ ~ TemplatesClash os).
Proof.
  intros os a Ha. pose proof (prepared W os a Ha) as HP. split.
  - intros (x & HR). destruct HR as (a' & g & routes & sorted & R1 & R2 & R3 & R4 & R5 & R6). rewrite Ha in R1. injection R1 as <-.
    rewrite R2 in HP. destruct HP as (P1 & P2 & P3 & P4 & P5 & P6 & P7). split; [exact P3|]. intros HC.
    destruct (any_order W _ _ R3 P1) as [A1 A2].
    assert (HN : as_tree routes new_tree = None).
    { apply (clash_iff os routes A1); [eapply Permutation_trans; [apply Permutation_sym; exact A2|exact P2]|exact P6|exact HC]. }
    assert (HD : rg_dynamic (g_reg g) = true).
    { apply P7. destruct HC as (pre & n1 & n2 & r1 & r2 & p & m & h & p' & m' & h' & _ & H1 & H2 & _). exists p, m, h, (pre ++ SWild n1 :: r1), n1.
      split; [exact H1|]. split; [exact H2|]. apply in_or_app. right. left. reflexivity. }
    unfold initialize in R6. rewrite HD, HN in R6. discriminate.
  - intros [HN HC]. destruct (prepare (a_root a)) as [g|] eqn:Eg; [|contradiction]. destruct HP as (P1 & P2 & P3 & P4 & P5 & P6 & P7).
    assert (HS : exists x, start os = Some x).
    { unfold start. rewrite Ha, Eg. unfold initialize. destruct (rg_dynamic (g_reg g)); [|eexists; reflexivity].
      destruct (as_tree (rg_routes (g_reg g)) new_tree) as [n|] eqn:En; [eexists; reflexivity|]. exfalso. apply HC.
      apply (clash_iff os _ P1 P2 P6). exact En. }
    destruct HS as (x & HS). exists x. apply start_running. exact HS.
Qed.

(* ---- refusals of single calls ---- *)
Lemma op_at_none : forall addr o g, op_at addr o g = None <->
  sub g addr = None \/ exists c, sub g addr = Some c /\ group_op o c = None.
Proof.
  induction addr as [|i addr IH]; intros o g; cbn [op_at L_Router.sub].
  - split; [intros H; right; exists g; auto|]. intros [H|(c & H & H2)]; [discriminate|]. injection H as <-. exact H2.
  - destruct g as [p mu ca mw re ch]. cbn [g_children]. destruct (nth_error ch i) as [c|]; [|split; [auto|reflexivity]].
    specialize (IH o c). destruct (op_at addr o c) as [c'|] eqn:E.
    + split; [discriminate|]. intros H. apply IH in H. discriminate.
    + split; [intros _; apply IH; reflexivity|reflexivity].
Qed.
Theorem route_refused : forall (os : ops) a addr m p h ms, build os new_app = Some a ->
  (build (os ++ [(addr, Route m p h ms)]) new_app = None <->
     sub (a_root a) addr = None \/
     (exists m' p' h' ms', In (addr, Route m' p' h' ms') os /\ m' = m /\ normalize (full_prefix os addr ++ p') = normalize (full_prefix os addr ++ p)) \/
     (exists e, tparse (normalize (full_prefix os addr ++ p)) = inl e)).
Proof.
  intros os a addr m p h ms Ha. rewrite (build_snoc W), Ha. unfold app_op. cbn [fst snd].
  assert (E : match op_at addr (Route m p h ms) (a_root a) with Some g => Some (App g (a_errs a)) | None => None end = None <-> op_at addr (Route m p h ms) (a_root a) = None).
  { destruct (op_at addr (Route m p h ms) (a_root a)); split; congruence. }
  rewrite E, op_at_none. destruct (build_inv W os a Ha) as [HI _]. split.
  - intros [H|(c & Hs & H)]; [auto|]. right. destruct (HI addr c Hs) as (O1 & _ & _ & _ & _ & O6 & O7 & _). destruct c as [pf mu ca mw re ch].
    cbn [group_op g_prefix g_reg] in *. unfold reg_add in H. rewrite O1 in *.
    pose proof (routes_add_spec W (rg_routes re) (normalize (full_prefix os addr ++ p)) m (compose h ms) O6) as HA.
    destruct (routes_add _ _ _ _) as [rs|].
    + right. destruct (tparse _) as [e|t]; [exists e; reflexivity|discriminate].
    + left. apply (Permutation_in _ (Permutation_map fst O7)) in HA. apply in_map_iff in HA. destruct HA as (e & E1 & E2).
      apply in_flat_map in E2. destruct E2 as (o & E2 & E3). destruct o as [m' p' h' ms'| | | | | |]; cbn [route_items] in E3; try contradiction. destruct E3 as [<-|[]]. cbn [fst] in E1. injection E1 as E1 E4.
      exists m', p', h', ms'. split; [|auto]. unfold calls in E2. apply in_map_iff in E2. destruct E2 as ([ad o] & E5 & E6). cbn [snd] in E5. subst o.
      apply filter_In in E6. destruct E6 as [E6 E7]. apply addr_eqb_eq in E7. cbn [fst] in E7. subst ad. exact E6.
  - intros H. destruct (sub (a_root a) addr) as [c|] eqn:Hs; [|auto]. right. exists c. split; [reflexivity|].
    destruct (HI addr c Hs) as (O1 & _ & _ & _ & _ & O6 & O7 & _). destruct c as [pf mu ca mw re ch].
    cbn [group_op g_prefix g_reg] in *. unfold reg_add. rewrite O1 in *.
    pose proof (routes_add_spec W (rg_routes re) (normalize (full_prefix os addr ++ p)) m (compose h ms) O6) as HA.
    destruct (routes_add _ _ _ _) as [rs|]; [|reflexivity]. destruct HA as (_ & _ & A3). destruct H as [H|[H|(e & H)]]; [discriminate| |rewrite H; reflexivity].
    exfalso. apply A3. destruct H as (m' & p' & h' & ms' & H1 & -> & H2). apply (Permutation_in _ (Permutation_sym (Permutation_map fst O7))).
    apply in_map_iff. exists (normalize (full_prefix os addr ++ p'), m, behind ms' h'). split; [cbn [fst]; rewrite H2; reflexivity|].
    apply in_flat_map. exists (Route m p' h' ms'). split; [|left; reflexivity]. unfold calls. apply in_map_iff. exists (addr, Route m p' h' ms').
    split; [reflexivity|]. apply filter_In. split; [exact H1|]. apply addr_eqb_refl.
Qed.

(* ---- error handlers ---- *)
Lemma et_wrap : forall (t : errtable W) ms c, et_get (wrap_errs t ms) c = option_map (behind ms) (et_get t c).
Proof.
  intros t ms c. induction t as [|[k h] t IH]; [reflexivity|]. cbn [wrap_errs map et_get fst snd]. destruct (k =? c)%N; [reflexivity|exact IH].
Qed.
Lemma handler_for_all : forall os : ops, handler_for os AllErrors <> None.
Proof.
  intros os. unfold handler_for. rewrite N.eqb_refl.
  assert (K : forall (os : ops) acc, acc <> None -> fold_left (fun acc x => match snd x with
      | OnErrors h cs => if existsb (N.eqb AllErrors) (match cs with [] => [AllErrors] | _ => cs end) then Some h else acc
      | _ => acc end) os acc <> None).
  { clear. induction os as [|x os IH]; intros acc H; [exact H|]. cbn [fold_left]. apply IH. destruct (snd x); try exact H.
    destruct (existsb _ _); [discriminate|exact H]. }
  apply K. discriminate.
Qed.
Lemma running_errs : forall (os : ops) x c, Running os x -> error_handler (x_errs x) c = Some (error_choice os c).
Proof.
  intros os x c (a & g & routes & sorted & R1 & R2 & R3 & R4 & R5 & R6).
  assert (E : x_errs x = wrap_errs (a_errs a) (g_mws (a_root a))).
  { unfold initialize in R6. destruct (rg_dynamic _); [destruct (as_tree _ _); [|discriminate]|]; injection R6 as <-; reflexivity. }
  rewrite E. destruct (build_inv W os a R1) as [HI _]. destruct (HI [] (a_root a) eq_refl) as (_ & O2 & _). rewrite O2.
  unfold error_handler, error_choice. rewrite !et_wrap, !(build_errs W os a R1). destruct (handler_for os c); [reflexivity|].
  pose proof (handler_for_all os). destruct (handler_for os AllErrors); [reflexivity|contradiction].
Qed.
Lemma find_catcher_none : forall (cs : list catcher) path, find_catcher cs path = None <-> forall p h, In (p, h) cs -> ~ Prefix p path.
Proof.
  induction cs as [|[p h] cs IH]; intros path; cbn [find_catcher]; [split; [intros _ ? ? []|reflexivity]|].
  destruct (has_prefix path p) eqn:E.
  - split; [discriminate|]. intros H. exfalso. apply (H p h (or_introl eq_refl)). apply has_prefix_iff. exact E.
  - rewrite IH. split.
    + intros H p' h' [Hi|Hi]; [|apply (H p' h' Hi)]. injection Hi as <- <-. intros HP. apply has_prefix_iff in HP. congruence.
    + intros H p' h' Hi. apply (H p' h'). right. exact Hi.
Qed.
Lemma find_catcher_some : forall (cs : list catcher) path h, Sorted Longer cs -> find_catcher cs path = Some h ->
  exists p, In (p, h) cs /\ Prefix p path /\ forall p' h', In (p', h') cs -> Prefix p' path -> (List.length p' <= List.length p)%nat.
Proof.
  intros cs path h Hs. apply Sorted_StronglySorted in Hs; [|intros a b c; unfold Longer; lia].
  induction Hs as [|[p h0] cs Hs IH Hf]; cbn [find_catcher]; [discriminate|]. destruct (has_prefix path p) eqn:E.
  - intros H. injection H as ->. exists p. split; [left; reflexivity|]. split; [apply has_prefix_iff; exact E|].
    intros p' h' [Hi|Hi] _; [injection Hi as -> _; lia|]. rewrite Forall_forall in Hf. specialize (Hf _ Hi). unfold Longer in Hf. cbn [fst] in Hf. lia.
  - intros H. destruct (IH H) as (q & Q1 & Q2 & Q3). exists q. split; [right; exact Q1|]. split; [exact Q2|].
    intros p' h' [Hi|Hi] HP; [|apply (Q3 p' h' Hi HP)]. injection Hi as <- _. apply has_prefix_iff in HP. congruence.
Qed.
Lemma prefix_same_length : forall p p' path, Prefix p path -> Prefix p' path -> List.length p = List.length p' -> p = p'.
Proof.
  intros p p' path (s & ->) (s' & E) HL. revert p' HL E. induction p as [|x p IH]; intros [|y p'] HL E; try discriminate; [reflexivity|].
  injection E as -> E. f_equal. apply IH; [injection HL as HL; exact HL|exact E].
Qed.
Lemma running_catchers : forall (os : ops) x, Running os x -> Permutation (x_catchers x) (caught os) /\ Sorted Longer (x_catchers x).
Proof. intros os x H. destruct (running_inv W os x H) as (r & _ & _ & _ & _ & H1 & H2 & _). auto. Qed.
Lemma http_error_eqb_eq : forall a b, http_error_eqb a b = true <-> a = b.
Proof.
  intros [c m] [c' m']. unfold http_error_eqb. cbn [he_code he_msg]. rewrite andb_true_iff, N.eqb_eq, beqb_eq. split; [intros [-> ->]; reflexivity|].
  intros H. injection H as -> ->. auto.
Qed.
Theorem errors_handled : forall (os : ops) x w r e, Running os x ->
  ~ (r_method r = TRACE /\ e = ErrMethodNotAllowed) ->
  (e = ErrNotFound -> forall p h, In (p, h) (caught os) -> ~ Prefix p (r_path r)) ->
  on_err x w r (EHttp e) = HUpdate (set_error (EHttp e)) (error_choice os (he_code e) w (set_error (EHttp e) r)).
Proof.
  intros os x w r e HR HT HC. unfold on_err.
  replace (method_eqb (r_method r) TRACE && is_err (EHttp e) ErrMethodNotAllowed) with false.
  - assert (E : (if is_err (EHttp e) ErrNotFound then find_catcher (x_catchers x) (r_path r) else None) = None).
    { destruct (is_err (EHttp e) ErrNotFound) eqn:E; [|reflexivity]. cbn [is_err] in E. apply http_error_eqb_eq in E. apply find_catcher_none.
      intros p h Hi. apply (HC E p h). eapply Permutation_in; [apply (running_catchers os x HR)|exact Hi]. }
    rewrite E, (running_errs os x _ HR). reflexivity.
  - symmetry. apply andb_false_iff. destruct (method_eqb (r_method r) TRACE) eqn:E1; [right|left; reflexivity].
    destruct (is_err (EHttp e) ErrMethodNotAllowed) eqn:E2; [|reflexivity]. exfalso. apply HT. cbn [is_err] in E2. split; [apply method_eqb_eq; exact E1|apply http_error_eqb_eq; exact E2].
Qed.
Theorem caught_longest : forall (os : ops) x w r p h, Running os x ->
  In (p, h) (caught os) -> Prefix p (r_path r) ->
  (forall p' h', In (p', h') (caught os) -> Prefix p' (r_path r) -> (List.length p' <= List.length p)%nat) ->
  (forall h', In (p, h') (caught os) -> h' = h) ->
  on_err x w r (EHttp ErrNotFound) = h w r.
Proof.
  intros os x w r p h HR Hi HP HL HU. destruct (running_catchers os x HR) as [C1 C2]. unfold on_err.
  assert (E : method_eqb (r_method r) TRACE && is_err (EHttp ErrNotFound) ErrMethodNotAllowed = false) by (rewrite andb_comm; reflexivity).
  rewrite E. change (is_err (EHttp ErrNotFound) ErrNotFound) with true. cbn iota.
  destruct (find_catcher (x_catchers x) (r_path r)) as [h0|] eqn:EF.
  - destruct (find_catcher_some _ _ _ C2 EF) as (q & Q1 & Q2 & Q3).
    assert (q = p).
    { apply (prefix_same_length q p (r_path r) Q2 HP). apply Nat.le_antisymm.
      - apply (HL q h0); [eapply Permutation_in; [exact C1|exact Q1]|exact Q2].
      - apply (Q3 p h); [eapply Permutation_in; [apply Permutation_sym; exact C1|exact Hi]|exact HP]. }
    subst q. rewrite (HU h0); [reflexivity|]. eapply Permutation_in; [exact C1|exact Q1].
  - exfalso. rewrite find_catcher_none in EF. apply (EF p h); [eapply Permutation_in; [apply Permutation_sym; exact C1|exact Hi]|exact HP].
Qed.

(* ---- aliases ---- *)
Lemma mutators_collect : forall (d : handler) g, map fst (collect W (fun c => map (fun mu => (mu, d)) (g_mutators c)) g) = mutators_of W g.
Proof.
  intros d. induction g as [g IH] using (router_ind2 W). rewrite collect_eq, wrap_keys, map_app, map_map. cbn [fst]. rewrite map_id.
  destruct g as [p mu ca mw re ch]. cbn [g_mutators g_children mutators_of] in *. f_equal.
  induction ch as [|c ch IHch]; [reflexivity|]. cbn [flat_map]. rewrite map_app, (IH c (or_introl eq_refl)), IHch; [reflexivity|].
  intros c0 Hc0. apply IH. right. exact Hc0.
Qed.
Theorem running_mutators : forall (os : ops) x, Running os x -> NoMutators os ->
  Permutation (x_mutators x) (map (fun ft => alias (fst ft) (snd ft)) (aliases os)).
Proof.
  intros os x (a & g & routes & sorted & R1 & R2 & R3 & R4 & R5 & R6) HN.
  pose proof (prepared W os a R1) as HP. rewrite R2 in HP. destruct HP as (_ & _ & _ & _ & P5 & _).
  assert (E : x_mutators x = mutators_of W (a_root a)).
  { rewrite <- P5. unfold initialize in R6. destruct (rg_dynamic _); [destruct (as_tree _ _); [|discriminate]|]; injection R6 as <-; reflexivity. }
  rewrite E. pose proof (build_inv W os a R1) as HI. rewrite <- (mutators_collect default_all_errors).
  eapply Permutation_trans; [apply Permutation_map; apply (collect_all W _ (fun c => map (fun mu => (mu, default_all_errors)) (g_mutators c))
     (fun x => map (fun mu => (mu, default_all_errors)) (mutator_items W (full_prefix os (fst x)) (snd x))) os (a_root a) HI)|].
  - intros addr c Hs. destruct HI as [HI1 _]. destruct (HI1 addr c Hs) as (_ & _ & _ & _ & O5 & _). rewrite O5.
    unfold calls. rewrite flat_map_map, <- flat_map_concat_map || idtac.
    assert (EE : forall l, map (fun mu => (mu, @default_all_errors W)) (flat_map (mutator_items W (full_prefix os addr)) (map snd (filter (fun x0 => addr_eqb (fst x0) addr) l))) =
      flat_map (fun x0 => map (fun mu => (mu, default_all_errors)) (mutator_items W (full_prefix os (fst x0)) (snd x0))) (filter (fun x0 => addr_eqb (fst x0) addr) l)).
    { induction l as [|[ad o] l IHl]; [reflexivity|]. cbn [filter fst]. destruct (addr_eqb ad addr) eqn:Ea; [|exact IHl].
      apply addr_eqb_eq in Ea. subst. cbn [map flat_map fst snd]. rewrite map_app, IHl. reflexivity. }
    rewrite <- EE. rewrite flat_map_map || idtac. apply Permutation_refl.
  - assert (EE : forall l, (forall y, In y l -> In y os) -> map fst (flat_map (placed W _ (fun x => map (fun mu => (mu, @default_all_errors W)) (mutator_items W (full_prefix os (fst x)) (snd x))) os []) l) =
      map (fun ft => alias (fst ft) (snd ft)) (flat_map (fun x => match snd x with Alias from to => [(path_join (full_prefix os (fst x)) from, to)] | _ => [] end) l)).
    { induction l as [|[ad o] l IHl]; intros Hl; [reflexivity|]. cbn [flat_map fst snd]. rewrite !map_app, IHl by (intros y Hy; apply Hl; right; exact Hy). f_equal.
      unfold placed. rewrite wrap_keys, map_map. cbn [fst snd]. rewrite map_id. destruct o; try reflexivity.
      exfalso. apply (HN ad mu). apply Hl. left. reflexivity. }
    unfold aliases. rewrite EE by auto. apply Permutation_refl.
Qed.
Lemma alias_other : forall (l : list (bytes * bytes)) r, ~ In (r_path r) (map fst l) ->
  run_mutators (map (fun ft => alias (fst ft) (snd ft)) l) r = r.
Proof.
  intros l. unfold run_mutators. induction l as [|[f t] l IH]; intros r H; [reflexivity|]. cbn [map fold_left fst snd] in *.
  assert (E : alias f t r = r).
  { unfold alias. destruct (beqb (r_path r) f) eqn:E; [|reflexivity]. apply beqb_eq in E. exfalso. apply H. left. symmetry. exact E. }
  rewrite E. apply IH. intros Hi. apply H. right. exact Hi.
Qed.
Lemma alias_hit : forall (l : list (bytes * bytes)) r f t, In (f, t) l -> NoDup (map fst l) -> ~ In t (map fst l) -> r_path r = f ->
  run_mutators (map (fun ft => alias (fst ft) (snd ft)) l) r = set_path t (alias_env f r).
Proof.
  intros l r f t Hi Hn Ht Hp. apply in_split in Hi. destruct Hi as (a & b & ->).
  rewrite map_app in Hn, Ht. cbn [map fst] in Hn, Ht. rewrite map_app.
  assert (E : forall u v : list mutator, run_mutators (u ++ v) r = run_mutators v (run_mutators u r)) by (intros u v; apply fold_left_app).
  rewrite E, (alias_other a r).
  - cbn [map]. change (run_mutators (map (fun ft => alias (fst ft) (snd ft)) b) (alias f t r) = set_path t (alias_env f r)).
    unfold alias at 2. rewrite Hp, beqb_refl. apply (alias_other b). cbn [set_path r_path]. intros H. apply Ht. apply in_or_app. right. right. exact H.
  - rewrite Hp. intros H. apply NoDup_remove_2 in Hn. apply Hn. apply in_or_app. left. exact H.
Qed.
(* aliases with distinct sources and no chains do not depend on their order *)
Lemma alias_perm : forall (mus : list mutator) l, Permutation mus (map (fun ft : bytes * bytes => alias (fst ft) (snd ft)) l) ->
  exists l', mus = map (fun ft => alias (fst ft) (snd ft)) l' /\ Permutation l' l.
Proof.
  intros mus l H. apply Permutation_map_inv in H. destruct H as (l' & -> & H). exists l'. split; [reflexivity|]. apply Permutation_sym. exact H.
Qed.
Theorem aliased : forall (os : ops) x r, Running os x -> PlainAliases os ->
  (forall f t, In (f, t) (aliases os) -> r_path r = f -> run_mutators (x_mutators x) r = set_path t (alias_env f r)) /\
  (~ In (r_path r) (map fst (aliases os)) -> run_mutators (x_mutators x) r = r).
Proof.
  intros os x r HR (HN & HD & HC). destruct (alias_perm _ _ (running_mutators os x HR HN)) as (l & El & Hl). rewrite El.
  assert (Hk : forall k, In k (map fst l) <-> In k (map fst (aliases os))).
  { intros k. split; apply Permutation_in; [|apply Permutation_sym]; apply Permutation_map; exact Hl. }
  split.
  - intros f t Hi Hp. apply alias_hit; [| | |exact Hp].
    + eapply Permutation_in; [apply Permutation_sym; exact Hl|exact Hi].
    + eapply Permutation_NoDup; [apply Permutation_map; apply Permutation_sym; exact Hl|exact HD].
    + rewrite Hk. apply (HC f t Hi).
  - intros H. apply alias_other. rewrite Hk. exact H.
Qed.
(* the target is the same, whatever the environment *)
Lemma route_target_env : forall (x : runtime W) r e, x_mutators x = [] -> snd (route x (set_env e r)) = snd (route x r).
Proof.
  intros x r e Hm. unfold route, arrive. rewrite Hm. cbn [run_mutators fold_left]. destruct r. cbn.
  destruct (x_table x) as [t|n]; [destruct (ep_get t _); [unfold to_endpoint; cbn; destruct (get_handler _ _); reflexivity|reflexivity]|].
  destruct (match_path n _ _); try reflexivity. unfold to_endpoint. cbn. destruct (get_handler _ _); reflexivity.
Qed.
Theorem aliased_route : forall (os : ops) x r f t, Running os x -> PlainAliases os -> In (f, t) (aliases os) -> r_path r = f ->
  snd (route x r) = snd (route x (set_path t r)) /\
  fst (route x r) = alias_env f (fst (route x (set_path t r))).
Proof.
  intros os x r f t HR HP Hi Hf.
  destruct (aliased os x r HR HP) as [A1 _]. specialize (A1 f t Hi Hf).
  destruct (aliased os x (set_path t r) HR HP) as [_ A2]. destruct HP as (_ & _ & HC). specialize (A2 (HC f t Hi)).
  unfold route, arrive. rewrite A1, A2. clear. destruct r as [m p q ps pr hs en cl ct cn up cx ev hj]. unfold alias_env. cbn [set_path set_env r_path r_params].
  destruct (x_table x) as [tb|n].
  - destruct (ep_get tb (normalize t)); [|split; reflexivity]. unfold to_endpoint, set_allowed. cbn [set_path set_env r_method r_env].
    destruct (get_handler m (ep_methods e)); split; reflexivity.
  - destruct (match_path n (normalize t) ps); [|split; reflexivity|split; reflexivity|split; reflexivity].
    unfold to_endpoint, set_allowed. cbn [set_path set_env set_params r_method r_env].
    destruct (get_handler m (ep_methods p0)); split; reflexivity.
Qed.
Theorem not_aliased : forall (os : ops) x r, Running os x -> PlainAliases os -> ~ In (r_path r) (map fst (aliases os)) ->
  arrive x r = set_path (normalize (r_path r)) r.
Proof. intros os x r HR HP H. unfold arrive. rewrite (proj2 (aliased os x r HR HP) H). reflexivity. Qed.

(* ---- the path in error handling, after the request has been routed ---- *)
Theorem error_path : forall (os : ops) x r, Running os x -> PlainAliases os ->
  ~ In (r_path (arrive x r)) (map fst (aliases os)) ->
  run_mutators (x_mutators x) (arrive x r) = arrive x r.
Proof. intros os x r HR HP H. apply (proj2 (aliased os x (arrive x r) HR HP) H). Qed.

(* ---- trailing slashes ---- *)
Theorem slashes_routed : forall (x : runtime W) r q c k, x_mutators x = [] -> (2 <= List.length q)%nat -> c <> SLASH ->
  route x (set_path (q ++ c :: repeat SLASH k) r) = route x (set_path (q ++ [c]) r).
Proof.
  intros x r q c k Hm Hq Hc. unfold route, arrive. rewrite Hm. cbn [run_mutators fold_left].
  change (r_path (set_path (q ++ c :: repeat SLASH k) r)) with (q ++ c :: repeat SLASH k). change (r_path (set_path (q ++ [c]) r)) with (q ++ [c]).
  rewrite (normalize_eats q c k Hq Hc), (normalize_eats q c 0 Hq Hc : normalize (q ++ [c]) = _). reflexivity.
Qed.
(* ---- no panics ---- *)
Theorem routing_safe : forall (os : ops) x r, Running os x -> r_path (arrive x r) <> [] -> snd (route x r) <> ToPanic.
Proof.
  intros os x r HR Hp. destruct (running_inv W os x HR) as (routes & R1 & R2 & R3 & R4 & _ & _ & [[_ Ht]|[_ (n & Ht & Hn)]]); unfold route; rewrite Ht.
  - destruct (ep_get _ _); [unfold to_endpoint; destruct (get_handler _ _); discriminate|discriminate].
  - assert (HT : Forall (fun e : bytes * mtable => exists t, tparse (fst e) = inr t) routes).
    { apply Forall_forall. intros [p t] Hi. destruct R1 as (_ & W2 & _). rewrite Forall_forall in W2. pose proof (W2 _ Hi) as Hne. cbn in Hne.
      destruct t as [|[m h] t]; [contradiction|]. apply (R4 (p, m, h)). eapply Permutation_in; [exact R2|]. apply (in_flat W). exists ((m, h) :: t). split; [exact Hi|left; reflexivity]. }
    rewrite (as_tree_insert W _ _ HT) in Hn. pose proof (match_never_panics _ _ _ _ (r_path (arrive x r)) (r_params (arrive x r)) Hn Hp) as HM.
    destruct (match_path n _ _); try contradiction; [|discriminate]. unfold to_endpoint. destruct (get_handler _ _); discriminate.
Qed.

(* ---- middlewares ---- *)
(* a middleware that leaves a mark, then goes on *)
Lemma behind_app : forall ms ms' (h : handler), behind (ms ++ ms') h = behind ms (behind ms' h).
Proof. intros ms ms' h. unfold behind. apply fold_right_app. Qed.
End Router.
