(* Routing. *)
From Coq Require Import Permutation Sorted.
From Verif Require Import M_Base M_Status M_Method M_KeyValue M_Request M_Response M_Suit M_Path M_Radix M_Router S_Routes S_Router
  L_Base L_Path L_Radix L_Router L_Router2 L_Router3.
Local Arguments method_string : simpl never.

(* ---- Allow lists ---- *)
Lemma method_ends : forall m, exists a c, method_string m = a ++ [c] /\ c <> x2c.
Proof.
  intros m. exists (removelast (method_string m)), (last (method_string m) x00).
  destruct m; (split; [reflexivity|discriminate]).
Qed.
Lemma join_comma_concat : forall l : list bytes, l <> [] -> concat (map (fun s => s ++ B ",") l) = join_commas l ++ B ",".
Proof.
  intros [|s l] H; [contradiction|]. clear H. cbn [map concat join_commas]. revert s. induction l as [|s2 l IH]; intros s.
  - cbn [map concat]. rewrite !app_nil_r. reflexivity.
  - cbn [map concat]. rewrite IH. rewrite <- !app_assoc. reflexivity.
Qed.
Lemma join_commas_ends : forall ms, ms <> [] -> exists a c, join_commas (map method_string ms) = a ++ [c] /\ c <> x2c.
Proof.
  intros ms H. destruct (exists_last H) as (ms0 & m & ->). destruct (method_ends m) as (a & c & E & Hc). rewrite map_app. cbn [map]. rewrite E.
  destruct ms0 as [|m0 ms0]; cbn [map app join_commas].
  - exists a, c. cbn. rewrite app_nil_r. auto.
  - rewrite map_app, concat_app. cbn [map concat]. rewrite app_nil_r. eexists. exists c. split; [|exact Hc].
    rewrite !app_assoc. reflexivity.
Qed.
Lemma trim_right_one : forall a c, c <> x2c -> trim_right_commas ((a ++ [c]) ++ B ",") = a ++ [c].
Proof.
  intros a c H. unfold trim_right_commas. rewrite !rev_app_distr. cbn [B rev app trim_commas]. 
  change (rev (B ",")) with [x2c]. cbn [app trim_commas]. change (Byte.eqb x2c x2c) with true. cbn iota.
  apply beq_neq in H. rewrite H. cbn [rev]. rewrite rev_involutive. reflexivity.
Qed.
Lemma allow_string_text : forall W (f : method -> option (handler W)), AllowText (fun m => exists h, f m = Some h) (allow_string f).
Proof.
  intros W f. set (ms := filter (fun m => match f m with Some _ => true | None => false end) all_methods).
  exists ms. split; [|split].
  - apply NoDup_filter. unfold all_methods, method_list. repeat (constructor; [cbn; intuition discriminate|]). constructor.
  - intros m. unfold ms. rewrite filter_In. split.
    + intros [_ H]. destruct (f m) as [h|]; [exists h; reflexivity|discriminate].
    + intros (h & ->). split; [|reflexivity]. destruct m; cbn; tauto.
  - unfold allow_string.
    assert (E : forall l, concat (map (fun m => match f m with Some _ => method_string m ++ B "," | None => [] end) l) =
      concat (map (fun s => s ++ B ",") (map method_string (filter (fun m => match f m with Some _ => true | None => false end) l)))).
    { induction l as [|m l IH]; [reflexivity|]. cbn [map concat filter]. destruct (f m); cbn [map concat]; rewrite IH; reflexivity. }
    rewrite E. fold ms. destruct ms as [|m l] eqn:Em; [reflexivity|]. rewrite join_comma_concat by discriminate.
    destruct (join_commas_ends (m :: l)) as (a & c & -> & Hc); [discriminate|]. apply trim_right_one. exact Hc.
Qed.
Lemma trim_comma_text : forall ms, trim_comma (concat (map (fun s => s ++ B ",") (map method_string ms))) = join_commas (map method_string ms).
Proof.
  intros [|m l]; [reflexivity|]. rewrite join_comma_concat by discriminate. unfold trim_comma. change (B ",") with [x2c].
  rewrite last_byte_snoc, drop_last_snoc. reflexivity.
Qed.

Section Router.
Variable W : Type.
Notation handler := (handler W). Notation middleware := (middleware W). Notation rop := (rop W).
Notation catcher := (catcher W). Notation mtable := (mtable W). Notation router := (router W).
Notation ops := (list (list nat * rop)).
Notation item := (bytes * method * handler)%type.
Notation flat := (flat W).

(* ---- iteration orders ---- *)
Lemma flat_map_perm2 : forall l l', Forall2 (fun e e' : bytes * mtable => fst e = fst e' /\ Permutation (snd e) (snd e')) l l' ->
  Permutation (flat l) (flat l').
Proof.
  intros l l' H. induction H as [|[p t] [p' t'] l l' [E HP] _ IH]; [constructor|]. cbn [fst snd] in *. subst p'.
  unfold L_Router.flat in *. cbn [flat_map fst snd]. apply Permutation_app; [apply Permutation_map; exact HP|exact IH].
Qed.
Lemma any_order : forall rs l : list (bytes * mtable), AnyOrder rs l -> wf W rs -> wf W l /\ Permutation (flat rs) (flat l).
Proof.
  intros rs l (l2 & HP & HF) (W1 & W2 & W3).
  assert (HR : Permutation (flat rs) (flat l)).
  { eapply Permutation_trans; [apply (perm_flat_map _ _ (fun e : bytes * mtable => map (fun mh => (fst e, fst mh, snd mh)) (snd e)) _ _ HP)|]. apply flat_map_perm2. exact HF. }
  split; [|exact HR]. split; [|split].
  - replace (map fst l) with (map fst l2).
    + eapply Permutation_NoDup; [apply Permutation_map; exact HP|exact W1].
    + clear -HF. induction HF as [|x y l l' [E _] _ IH]; [reflexivity|]. cbn [map]. f_equal; [exact E|exact IH].
  - apply (Permutation_Forall HP) in W2. clear -HF W2. induction HF as [|x y l l' [_ HP] _ IH]; [constructor|]. inversion W2; subst.
    constructor; [|apply IH; assumption]. intros E. rewrite E in HP. apply Permutation_sym in HP. apply Permutation_nil in HP. auto.
  - eapply Permutation_NoDup; [apply Permutation_map; exact HR|exact W3].
Qed.

(* ---- the map of static routes ---- *)
Lemma ep_get_set : forall l p (e : endpoint W) q, ep_get (ep_set l p e) q = if beqb p q then Some e else ep_get l q.
Proof.
  induction l as [|[k e0] l IH]; intros p e q; cbn [ep_set ep_get]; [reflexivity|]. destruct (beqb k p) eqn:E; cbn [ep_get].
  - apply beqb_eq in E. subst. destruct (beqb p q); reflexivity.
  - rewrite IH. destruct (beqb k q) eqn:E2; [|reflexivity]. destruct (beqb p q) eqn:E3; [|reflexivity].
    apply beqb_eq in E2, E3. apply beqb_neq in E. congruence.
Qed.
Lemma as_map_flat : forall routes : list (bytes * mtable),
  as_map routes = fold_left (fun l e => rmap_add l (fst (fst e)) (snd (fst e)) (snd e)) (flat routes) [].
Proof.
  intros routes. unfold as_map. generalize (@nil (bytes * endpoint W)) as l0. induction routes as [|[p t] routes IH]; intros l0; [reflexivity|].
  cbn [fold_left fst snd]. unfold L_Router.flat. cbn [flat_map fst snd]. rewrite fold_left_app. fold (flat routes). rewrite IH. f_equal.
  revert l0. induction t as [|[m h] t IHt]; intros l0; [reflexivity|]. cbn [map fold_left fst snd]. apply IHt.
Qed.
Lemma rmap_fold : forall (es : list item) p, NoDup (map fst es) ->
  match ep_get (fold_left (fun l e => rmap_add l (fst (fst e)) (snd (fst e)) (snd e)) es []) p with
  | None => forall m h, ~ In (p, m, h) es
  | Some e => (exists m h, In (p, m, h) es) /\ (forall m h, ep_methods e m = Some h <-> In (p, m, h) es) /\ ep_allow e = allow_string (ep_methods e)
  end.
Proof.
  induction es as [|[[q m0] h0] es IH] using rev_ind; intros p Hn; [intros m h []|].
  rewrite map_app in Hn. apply (Permutation_NoDup (Permutation_sym (Permutation_cons_append _ _))) in Hn. cbn [map fst] in Hn.
  inversion Hn as [|? ? N1 N2]; subst. specialize (IH p N2). rewrite fold_left_app. cbn [fold_left fst snd].
  set (l := fold_left _ es []) in *. unfold rmap_add. rewrite ep_get_set. destruct (beqb q p) eqn:E.
  - apply beqb_eq in E. subst q. cbn [ep_methods ep_allow]. split; [exists m0, h0; apply in_or_app; right; left; reflexivity|]. split; [|reflexivity].
    intros m h. unfold mset. destruct (method_eqb m m0) eqn:Em.
    + apply method_eqb_eq in Em. subst m0. split.
      * intros H. injection H as ->. apply in_or_app. right. left. reflexivity.
      * intros H. apply in_app_or in H. destruct H as [H|[H|[]]]; [|congruence]. exfalso. apply N1. apply (in_map fst) in H. exact H.
    + assert (Hne : m <> m0) by (intros ->; rewrite method_eqb_refl in Em; discriminate). rewrite in_app_iff. cbn [In].
      destruct (ep_get l p) as [e|].
      * destruct IH as (_ & IH & _). rewrite IH. split; [auto|]. intros [H|[H|[]]]; [exact H|congruence].
      * unfold no_methods. split; [discriminate|]. intros [H|[H|[]]]; [exfalso; exact (IH m h H)|congruence].
  - apply beqb_neq in E. destruct (ep_get l p) as [e|].
    + destruct IH as ((m & h & I1) & I2 & I3). split; [exists m, h; apply in_or_app; auto|]. split; [|exact I3].
      intros m1 h1. rewrite I2, in_app_iff. cbn [In]. split; [auto|]. intros [H|[H|[]]]; [exact H|congruence].
    + intros m h H. apply in_app_or in H. destruct H as [H|[H|[]]]; [exact (IH m h H)|congruence].
Qed.

(* ---- the endpoints of the tree ---- *)
Lemma tree_endpoint_methods : forall t : mtable, NoDup (map fst t) -> forall m h, ep_methods (tree_endpoint t) m = Some h <-> In (m, h) t.
Proof.
  intros t. unfold tree_endpoint. cbn [ep_methods]. induction t as [|[m0 h0] t IH] using rev_ind; intros Hn m h; [split; [discriminate|intros []]|].
  rewrite map_app in Hn. apply (Permutation_NoDup (Permutation_sym (Permutation_cons_append _ _))) in Hn. cbn [map fst] in Hn.
  inversion Hn as [|? ? N1 N2]; subst. rewrite fold_left_app. cbn [fold_left fst snd]. unfold mset at 1. rewrite in_app_iff. cbn [In].
  destruct (method_eqb m m0) eqn:E.
  - apply method_eqb_eq in E. subst. split; [intros H; injection H as ->; auto|]. intros [H|[H|[]]]; [|congruence].
    exfalso. apply N1. apply (in_map fst) in H. exact H.
  - rewrite (IH N2). split; [auto|]. intros [H|[H|[]]]; [exact H|]. injection H as -> _. rewrite method_eqb_refl in E. discriminate.
Qed.
Lemma allow_ext : forall (P Q : method -> Prop) a, (forall m, P m <-> Q m) -> AllowText P a -> AllowText Q a.
Proof. intros P Q a H (ms & A1 & A2 & A3). exists ms. split; [exact A1|]. split; [|exact A3]. intros m. rewrite A2. apply H. Qed.
Lemma tree_endpoint_allow : forall t : mtable, NoDup (map fst t) -> AllowText (fun m => exists h, In (m, h) t) (ep_allow (tree_endpoint t)).
Proof.
  intros t Hn. exists (map fst t). split; [exact Hn|]. split.
  - intros m. rewrite in_map_iff. split; [intros ([m' h] & E & H); cbn in E; subst; exists h; exact H|intros (h & H); exists (m, h); auto].
  - unfold tree_endpoint. cbn [ep_allow]. rewrite <- trim_comma_text, !map_map. reflexivity.
Qed.

(* ---- reaching an endpoint ---- *)
Lemma answered : forall (R : method -> handler -> Prop) (e : endpoint W) r,
  (forall m h, ep_methods e m = Some h <-> R m h) -> AllowText (fun m => exists h, R m h) (ep_allow e) ->
  Answered R r (to_endpoint e r).
Proof.
  intros R e r HM HA. unfold to_endpoint, get_handler. cbn [set_allowed set_env r_method]. split; [|split; [|split]].
  - intros h Hh. apply HM in Hh. rewrite Hh. reflexivity.
  - intros h Hm Hn Hh. rewrite Hm. destruct (ep_methods e HEAD) as [h'|] eqn:E; [apply HM in E; exfalso; exact (Hn h' E)|].
    apply HM in Hh. rewrite Hh. reflexivity.
  - intros Hn Hg. destruct (ep_methods e (r_method r)) as [h|] eqn:E; [apply HM in E; exfalso; exact (Hn h E)|].
    destruct (r_method r); try reflexivity. destruct (ep_methods e GET) as [h|] eqn:E2; [apply HM in E2; exfalso; exact (Hg eq_refl h E2)|reflexivity].
  - exists (ep_allow e). split; [|exact HA].
    destruct (ep_methods e (r_method r)); [reflexivity|]. destruct (r_method r); try reflexivity. destruct (ep_methods e GET); reflexivity.
Qed.

(* ---- what running means ---- *)
Lemma running_inv : forall (os : ops) x, Running os x ->
  exists routes, wf W routes /\ Permutation (flat routes) (registered os) /\ NoDup (map fst (registered os)) /\
    (forall e, In e (registered os) -> exists t, tparse (fst (fst e)) = inr t) /\
    Permutation (x_catchers x) (caught os) /\ Sorted Longer (x_catchers x) /\
    ((~ HasParams os /\ x_table x = inl (as_map routes)) \/
     (HasParams os /\ exists n, x_table x = inr n /\ as_tree routes new_tree = Some n)).
Proof.
  intros os x (a & g & routes & sorted & R1 & R2 & R3 & R4 & R5 & R6). pose proof (prepared W os a R1) as HP. rewrite R2 in HP.
  destruct HP as (P1 & P2 & P3 & P4 & P5 & P6 & P7). destruct (any_order _ _ R3 P1) as [A1 A2].
  exists routes. split; [exact A1|]. split; [eapply Permutation_trans; [apply Permutation_sym; exact A2|exact P2]|]. split; [exact P3|]. split; [exact P6|].
  unfold initialize in R6. destruct (rg_dynamic (g_reg g)) eqn:Ed.
  - destruct (as_tree routes new_tree) as [n|] eqn:En; [|discriminate]. injection R6 as <-. cbn [x_catchers x_table].
    split; [eapply Permutation_trans; [apply Permutation_sym; exact R4|exact P4]|]. split; [exact R5|].
    right. split; [apply P7; reflexivity|]. exists n. auto.
  - injection R6 as <-. cbn [x_catchers x_table]. split; [eapply Permutation_trans; [apply Permutation_sym; exact R4|exact P4]|]. split; [exact R5|].
    left. split; [|reflexivity]. intros H. apply P7 in H. congruence.
Qed.

Theorem static_routing : forall (os : ops) x r, Running os x -> ~ HasParams os ->
  ((exists m h, In (r_path (arrive x r), m, h) (registered os)) ->
     Answered (fun m h => In (r_path (arrive x r), m, h) (registered os)) (arrive x r) (route x r)) /\
  ((forall m h, ~ In (r_path (arrive x r), m, h) (registered os)) -> route x r = (arrive x r, ToError ErrNotFound)).
Proof.
  intros os x r HR Hs. destruct (running_inv os x HR) as (routes & R1 & R2 & R3 & _ & _ & _ & [[_ Ht]|[Hd _]]); [|contradiction].
  unfold route. rewrite Ht, as_map_flat. set (r' := arrive x r).
  assert (Hn : NoDup (map fst (flat routes))) by (destruct R1 as (_ & _ & N); exact N).
  assert (HI : forall m h, In (r_path r', m, h) (flat routes) <-> In (r_path r', m, h) (registered os)).
  { intros m h. split; apply Permutation_in; [exact R2|apply Permutation_sym; exact R2]. }
  pose proof (rmap_fold (flat routes) (r_path r') Hn) as HF.
  destruct (ep_get _ (r_path r')) as [e|].
  - destruct HF as ((m & h & F1) & F2 & F3). split.
    + intros _. apply answered; [intros m0 h0; rewrite F2; apply HI|]. rewrite F3. eapply allow_ext; [|apply allow_string_text].
      intros m0. split; intros (h0 & H0); exists h0; [apply HI, F2|apply F2, HI]; exact H0.
    + intros H. exfalso. apply (H m h). apply HI. exact F1.
  - split; [|reflexivity]. intros (m & h & H). exfalso. apply (HF m h). apply HI. exact H.
Qed.

(* ---- the tree ---- *)
Definition tpl (p : bytes) : list seg := match tparse p with inr t => t | inl _ => [] end.
Definition tree_items (routes : list (bytes * mtable)) : list (list seg * endpoint W) := map (fun e => (tpl (fst e), tree_endpoint (snd e))) routes.
Lemma as_tree_insert : forall (routes : list (bytes * mtable)) n, Forall (fun e => exists t, tparse (fst e) = inr t) routes ->
  as_tree routes n = insert_all (endpoint W) (tree_items routes) n.
Proof.
  induction routes as [|[p t] routes IH]; intros n H; [reflexivity|]. inversion H as [|? ? [u E] H2]; subst. cbn [fst] in E.
  cbn [as_tree tree_items map insert_all fst snd]. unfold tpl. rewrite E. destruct (insert u (tree_endpoint t) n); [apply IH; exact H2|reflexivity].
Qed.
Lemma wf_methods : forall (routes : list (bytes * mtable)) p t, wf W routes -> In (p, t) routes -> NoDup (map fst t).
Proof.
  intros routes p t (_ & _ & N) Hi. apply in_split in Hi. destruct Hi as (a & b & ->). rewrite (flat_app W), map_app in N. apply NoDup_app_r in N.
  unfold L_Router.flat in N. cbn [flat_map fst snd] in N. rewrite map_app in N. apply NoDup_app_l in N. rewrite map_map in N. cbn [fst] in N.
  rewrite <- (map_map fst (fun m => (p, m))) in N. revert N. generalize (map fst t) as l. induction l as [|m l IH]; intros N; [constructor|].
  cbn [map] in N. inversion N as [|? ? N1 N2]; subst. constructor; [|apply IH; exact N2]. intros H. apply N1. apply in_map_iff. exists m. auto.
Qed.
Lemma in_table : forall (routes : list (bytes * mtable)) p t, wf W routes -> In (p, t) routes -> forall m h, In (p, m, h) (flat routes) <-> In (m, h) t.
Proof.
  intros routes p t (W1 & _ & _) Hi m h. rewrite (in_flat W). split.
  - intros (t' & H1 & H2). apply (rt_get_in W) in Hi; [|exact W1]. apply (rt_get_in W) in H1; [|exact W1]. congruence.
  - intros H. exists t. auto.
Qed.
Theorem dynamic_routing : forall (os : ops) x r parts, Running os x -> HasParams os -> DistinctTemplates os -> PathOf parts (r_path (arrive x r)) ->
  (forall p m h t ps, In (p, m, h) (registered os) -> tparse p = inr t -> Binds t parts ps -> ~ Overruled os t parts ->
     Answered (fun m h => In (p, m, h) (registered os)) (set_params (add_params (r_params (arrive x r)) ps) (arrive x r)) (route x r)) /\
  ((forall p m h t ps, In (p, m, h) (registered os) -> tparse p = inr t -> Binds t parts ps -> Overruled os t parts) ->
     (exists ps, route x r = (set_params ps (arrive x r), ToError ErrNotFound)) \/
     (parts = [] /\ route x r = (set_allowed [] (arrive x r), ToError ErrMethodNotAllowed))).
Proof.
  intros os x r parts HR Hd HD HP. destruct (running_inv os x HR) as (routes & R1 & R2 & R3 & R4 & _ & _ & [[Hs _]|[_ (n & Ht & Hn)]]); [contradiction|].
  set (r' := arrive x r) in *.
  assert (HI : forall e, In e (flat routes) <-> In e (registered os)).
  { intros e. split; apply Permutation_in; [exact R2|apply Permutation_sym; exact R2]. }
  assert (HE : forall p t, In (p, t) routes -> exists m h, In (p, m, h) (registered os) /\ In (m, h) t).
  { intros p t Hi. destruct R1 as (_ & W2 & _). rewrite Forall_forall in W2. pose proof (W2 _ Hi) as Hne. cbn in Hne.
    destruct t as [|[m h] t]; [contradiction|]. exists m, h. split; [|left; reflexivity]. apply HI. apply (in_flat W). exists ((m, h) :: t). split; [exact Hi|left; reflexivity]. }
  assert (HT : Forall (fun e : bytes * mtable => exists t, tparse (fst e) = inr t) routes).
  { apply Forall_forall. intros [p t] Hi. destruct (HE p t Hi) as (m & h & H1 & _). destruct (R4 _ H1) as (u & Hu). exists u. exact Hu. }
  rewrite (as_tree_insert _ _ HT) in Hn.
  assert (HND : NoDup (map fst (tree_items routes))).
  { unfold tree_items. rewrite map_map. cbn [fst]. destruct R1 as (W1 & _ & _). rewrite Forall_forall in HT.
    assert (Hinj : forall p t p' t', In (p, t) routes -> In (p', t') routes -> tpl p = tpl p' -> p = p').
    { intros p t p' t' H1 H2 E. destruct (HE p t H1) as (m & h & E1 & _). destruct (HE p' t' H2) as (m' & h' & E2 & _).
      apply (HD p p' m m' h h' E1 E2). destruct (R4 _ E1) as (u & Hu), (R4 _ E2) as (u' & Hu'). cbn [fst] in Hu, Hu'. unfold tpl in E. rewrite Hu, Hu' in *. congruence. }
    clear -W1 Hinj. induction routes as [|[p t] l IH]; [constructor|]. cbn [map fst] in *. inversion W1 as [|? ? N1 N2]; subst. constructor.
    - intros H. apply in_map_iff in H. destruct H as ([p' t'] & E & H). cbn [fst] in E. apply N1. rewrite (Hinj p t p' t').
      + apply (in_map fst) in H. exact H.
      + left. reflexivity.
      + right. exact H.
      + symmetry. exact E.
    - apply IH; [exact N2|]. intros p1 t1 p2 t2 H1 H2. apply (Hinj p1 t1 p2 t2); right; assumption. }
  assert (HB : forall t, Beaten (map fst (tree_items routes)) t parts <-> Overruled os t parts).
  { intros t. unfold Beaten, Overruled. split.
    - intros (pre & name & rest & v & rest' & B1 & B2 & B3). apply in_map_iff in B2. destruct B2 as ([u e] & B2 & B4). cbn [fst] in B2. subst u.
      unfold tree_items in B4. apply in_map_iff in B4. destruct B4 as ([p mt] & B4 & B5). cbn [fst snd] in B4. injection B4 as B4 _.
      destruct (HE p mt B5) as (m & h & E1 & _). exists pre, name, rest, v, rest', p, m, h. split; [exact B1|]. split; [exact B3|]. split; [exact E1|].
      destruct (R4 _ E1) as (u & Hu). cbn [fst] in Hu. unfold tpl in B4. rewrite Hu in *. congruence.
    - intros (pre & name & rest & v & rest' & p & m & h & B1 & B2 & B3 & B4). exists pre, name, rest, v, rest'. split; [exact B1|]. split; [|exact B2].
      apply HI in B3. apply (in_flat W) in B3. destruct B3 as (mt & B3 & _). apply in_map_iff. exists (tpl p, tree_endpoint mt). split; [unfold tpl; rewrite B4; reflexivity|].
      unfold tree_items. apply in_map_iff. exists (p, mt). auto. }
  destruct (tree_match (endpoint W) (tree_items routes) (Some (Endpoint no_methods [])) n parts (r_path r') (r_params r') HND Hn HP) as [M1 M2].
  split.
  - intros p m h t ps Hin Hp HBi HO. apply HI in Hin. apply (in_flat W) in Hin. destruct Hin as (mt & Hin & Hm).
    unfold route. rewrite Ht. fold r'. rewrite (M1 t (tree_endpoint mt) ps).
    + apply answered.
      * intros m0 h0. rewrite tree_endpoint_methods by (eapply wf_methods; eassumption). rewrite <- (in_table routes p mt R1 Hin). apply HI.
      * eapply allow_ext; [|apply tree_endpoint_allow; eapply wf_methods; eassumption]. intros m0. split; intros (h0 & H0); exists h0.
        -- apply HI. apply (in_table routes p mt R1 Hin). exact H0.
        -- apply (in_table routes p mt R1 Hin). apply HI. exact H0.
    + unfold tree_items. apply in_map_iff. exists (p, mt). cbn [fst snd]. unfold tpl. rewrite Hp. auto.
    + exact HBi.
    + intros H. apply HO. apply HB. exact H.
  - intros Hno. unfold route. rewrite Ht. fold r'. destruct (match_path n (r_path r') (r_params r')) as [e params|params| |]; try contradiction.
    + destruct M2 as [(t & ps & T1 & T2 & T3 & T4)|(T1 & T2 & T3 & T4)].
      * exfalso. apply T3, HB. unfold tree_items in T1. apply in_map_iff in T1. destruct T1 as ([p mt] & T1 & T5). cbn [fst snd] in T1. injection T1 as T1 _.
        destruct (HE p mt T5) as (m & h & E1 & _). destruct (R4 _ E1) as (u & Hu). cbn [fst] in Hu. apply (Hno p m h t ps E1); [|exact T2].
        unfold tpl in T1. rewrite Hu in *. congruence.
      * right. split; [exact T2|]. injection T1 as <-. rewrite T4.
        assert (E : set_params (r_params r') r' = r') by (destruct r'; reflexivity). rewrite E.
        unfold to_endpoint, get_handler, no_methods. cbn [ep_methods ep_allow]. destruct (r_method _); reflexivity.
    + left. exists params. reflexivity.
Qed.
End Router.
