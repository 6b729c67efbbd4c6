(* The tree of routes: what it contains after insertions and how it is searched. *)
From Verif Require Import M_Base M_KeyValue M_Path M_Radix S_Routes L_Base.

Local Arguments cut : simpl never.

Section Tree.
Variable P : Type.
Notation node := (M_Radix.node P).

(* ---- association lists ---- *)
Lemma entry_get_none : forall (l : list (bytes * node)) k, entry_get l k = None <-> ~ In k (map fst l).
Proof.
  induction l as [|[k n] l IH]; intros key; cbn [entry_get map fst In]; [tauto|].
  destruct (beqb k key) eqn:E; [apply beqb_eq in E|apply beqb_neq in E]; [|rewrite IH; tauto].
  split; [discriminate|]. intros H. exfalso. apply H. left. exact E.
Qed.
Lemma entry_change_keys : forall (l : list (bytes * node)) k n, map fst (entry_change l k n) = map fst l.
Proof.
  induction l as [|[k n] l IH]; intros key n'; cbn [entry_change map fst]; [reflexivity|].
  destruct (beqb k key); cbn [map fst]; [reflexivity|]. rewrite IH. reflexivity.
Qed.
Lemma entry_get_change : forall (l : list (bytes * node)) k n key, In k (map fst l) ->
  entry_get (entry_change l k n) key = if beqb k key then Some n else entry_get l key.
Proof.
  induction l as [|[k0 n0] l IH]; intros k n key Hi; cbn [entry_change entry_get map fst In] in *; [tauto|].
  destruct (beqb k0 k) eqn:E; cbn [entry_get].
  - apply beqb_eq in E. subst. destruct (beqb k key); reflexivity.
  - apply beqb_neq in E. destruct Hi as [Hi|Hi]; [contradiction|].
    destruct (beqb k0 key) eqn:E2; [|apply IH; exact Hi]. apply beqb_eq in E2. subst.
    destruct (beqb k key) eqn:E3; [|reflexivity]. apply beqb_eq in E3. congruence.
Qed.
Lemma entry_get_app : forall (l : list (bytes * node)) k n key,
  entry_get (l ++ [(k, n)]) key = match entry_get l key with Some x => Some x | None => if beqb k key then Some n else None end.
Proof.
  induction l as [|[k0 n0] l IH]; intros k n key; cbn [app entry_get]; [reflexivity|].
  destruct (beqb k0 key); [reflexivity|apply IH].
Qed.
Lemma entry_get_set : forall (l : list (bytes * node)) k n key,
  entry_get (map_set l k n) key = if beqb k key then Some n else entry_get l key.
Proof.
  intros l k n key. unfold map_set. destruct (entry_get l k) eqn:E.
  - apply entry_get_change. destruct (in_dec bytes_eq_dec k (map fst l)) as [H|H]; [exact H|].
    apply entry_get_none in H. congruence.
  - rewrite entry_get_app. destruct (beqb k key) eqn:E2.
    + apply beqb_eq in E2. subst. rewrite E. reflexivity.
    + destruct (entry_get l key); reflexivity.
Qed.
Lemma escape_get : forall (l : list (bytes * node)) m key, NoDup (map fst l) ->
  entry_get (fold_left (fun m e => map_set m (fst e) (snd e)) l m) key =
  match entry_get l key with Some x => Some x | None => entry_get m key end.
Proof.
  induction l as [|[k n] l IH]; intros m key Hn; cbn [fold_left entry_get]; [reflexivity|].
  inversion Hn as [|? ? H1 H2]; subst. rewrite IH by exact H2. cbn [fst snd]. rewrite entry_get_set.
  destruct (beqb k key) eqn:E; [|reflexivity]. apply beqb_eq in E. subst.
  destruct (entry_get l key) eqn:E2; [|reflexivity]. exfalso. apply H1.
  destruct (in_dec bytes_eq_dec key (map fst l)) as [H|H]; [exact H|]. apply entry_get_none in H. congruence.
Qed.

(* ---- one node ---- *)
Definition node_ok (n : node) : Prop :=
  (n_over n = false -> NoDup (map fst (n_arr n))) /\ (n_is_wildcard n = true <-> n_next n <> None).
Lemma get_add : forall (n : node) k c key, node_ok n -> statics_get n k = None ->
  statics_get (statics_add n k c) key = if beqb k key then Some c else statics_get n key.
Proof.
  intros [o arr m nx p w i] k c key [Hn _] Hk. unfold statics_add, statics_get in *. cbn [n_over n_arr n_map] in *.
  destruct o; cbn [n_over n_arr n_map set_statics] in *.
  - apply entry_get_set.
  - destruct (Nat.ltb loadfactor (List.length arr + 1)); cbn [n_over n_arr n_map set_statics].
    + rewrite entry_get_set, escape_get by auto. destruct (beqb k key); [reflexivity|]. destruct (entry_get arr key); reflexivity.
    + rewrite entry_get_app. destruct (beqb k key) eqn:E; [apply beqb_eq in E; subst; rewrite Hk; reflexivity|].
      destruct (entry_get arr key); reflexivity.
Qed.
Lemma get_change : forall (n : node) k c key, statics_get n k <> None ->
  statics_get (statics_change n k c) key = if beqb k key then Some c else statics_get n key.
Proof.
  intros [o arr m nx p w i] k c key Hk. unfold statics_change, statics_get in *. cbn [n_over n_arr n_map] in *.
  assert (In : forall l : list (bytes * node), entry_get l k <> None -> In k (map fst l)).
  { intros l H. destruct (in_dec bytes_eq_dec k (map fst l)) as [H1|H1]; [exact H1|]. apply entry_get_none in H1. congruence. }
  destruct o; cbn [n_over n_arr n_map set_statics] in *; apply entry_get_change; auto.
Qed.
Lemma add_rest : forall (n : node) k c, n_next (statics_add n k c) = n_next n /\ n_payload (statics_add n k c) = n_payload n /\
  n_wildcard (statics_add n k c) = n_wildcard n /\ n_is_wildcard (statics_add n k c) = n_is_wildcard n.
Proof.
  intros [o arr m nx p w i] k c. unfold statics_add. cbn [n_over n_arr]. destruct o; [|destruct (Nat.ltb _ _)]; repeat split.
Qed.
Lemma change_rest : forall (n : node) k c, n_next (statics_change n k c) = n_next n /\ n_payload (statics_change n k c) = n_payload n /\
  n_wildcard (statics_change n k c) = n_wildcard n /\ n_is_wildcard (statics_change n k c) = n_is_wildcard n.
Proof. intros [o arr m nx p w i] k c. unfold statics_change. cbn [n_over]. destruct o; repeat split. Qed.
Lemma add_ok : forall (n : node) k c, node_ok n -> statics_get n k = None -> node_ok (statics_add n k c).
Proof.
  intros n k c [H1 H2] Hk. split.
  - destruct n as [o arr m nx p w i]. unfold statics_add, statics_get in *. cbn [n_over n_arr n_map] in *.
    destruct o; [discriminate|]. destruct (Nat.ltb _ _); cbn [n_over n_arr n_map set_statics]; [discriminate|].
    intros _. rewrite map_app. cbn [map fst]. apply entry_get_none in Hk. specialize (H1 eq_refl).
    clear -H1 Hk. induction (map fst arr) as [|x l IH]; cbn [app].
    + constructor; [intros []|constructor].
    + inversion H1; subst. constructor; [rewrite in_app_iff; cbn in *; intuition congruence|]. apply IH; [assumption|]. cbn in Hk. tauto.
  - destruct (add_rest n k c) as (-> & _ & _ & ->). exact H2.
Qed.
Lemma change_ok : forall (n : node) k c, node_ok n -> node_ok (statics_change n k c).
Proof.
  intros n k c [H1 H2]. split.
  - destruct n as [o arr m nx p w i]. unfold statics_change. cbn [n_over n_arr n_map] in *.
    destruct o; cbn [n_over n_arr n_map set_statics]; [discriminate|]. rewrite entry_change_keys. exact H1.
  - destruct (change_rest n k c) as (-> & _ & _ & ->). exact H2.
Qed.
Lemma new_ok : forall p, node_ok (@new_node P p).
Proof. intros p. split; cbn; [constructor|]. split; [discriminate|]. intros H. congruence. Qed.

(* ---- positions in a tree ---- *)
Fixpoint at_ (t : list seg) (n : node) : option node :=
  match t with
  | [] => Some n
  | SStatic s :: t' => match statics_get n s with Some c => at_ t' c | None => None end
  | SWild name :: t' =>
      if n_is_wildcard n && beqb (n_wildcard n) name
      then match n_next n with Some c => at_ t' c | None => None end
      else None
  end.
Definition tree_ok (n : node) : Prop := forall t m, at_ t n = Some m -> node_ok m.
Definition payload_at (n : node) (t : list seg) : option P :=
  match at_ t n with Some m => n_payload m | None => None end.
Definition has_at (n : node) (t : list seg) : Prop := at_ t n <> None.

Lemma at_app : forall t u n, at_ (t ++ u) n = match at_ t n with Some m => at_ u m | None => None end.
Proof.
  induction t as [|[s|w] t IH]; intros u n; cbn [app at_]; [reflexivity| |].
  - destruct (statics_get n s); [apply IH|reflexivity].
  - destruct (_ && _); [|reflexivity]. destruct (n_next n); [apply IH|reflexivity].
Qed.
Lemma seg_eq_dec : forall a b : seg, {a = b} + {a <> b}.
Proof. decide equality; apply bytes_eq_dec. Qed.
Lemma tmpl_eq_dec : forall a b : list seg, {a = b} + {a <> b}.
Proof. apply list_eq_dec, seg_eq_dec. Qed.
Definition prefix_of {A} (u t : list A) : Prop := exists r, t = u ++ r.
Lemma prefix_cons : forall A (x y : A) u t, prefix_of (x :: u) (y :: t) <-> x = y /\ prefix_of u t.
Proof.
  intros A x y u t. split.
  - intros [r H]. injection H as -> ->. split; [reflexivity|]. exists r. reflexivity.
  - intros [-> [r ->]]. exists r. reflexivity.
Qed.
Lemma prefix_nil : forall A (u : list A), prefix_of u [] <-> u = [].
Proof.
  intros A u. split; [|intros ->; exists []; reflexivity]. intros [r H]. destruct u; [reflexivity|discriminate].
Qed.
Lemma new_at : forall p t m, at_ t (@new_node P p) = Some m <-> t = [] /\ m = new_node p.
Proof.
  intros p [|[s|w] t] m; cbn; split; try discriminate; try (intros [? ?]; discriminate).
  - intros H. injection H as <-. auto.
  - intros [_ ->]. reflexivity.
Qed.

(* what insertion does *)
Theorem insert_spec : forall t p n n', tree_ok n -> insert t p n = Some n' ->
  tree_ok n' /\
  (forall u, payload_at n' u = if tmpl_eq_dec u t then Some p else payload_at n u) /\
  (forall u, has_at n' u <-> has_at n u \/ prefix_of u t).
Proof.
  induction t as [|[s|w] t IH]; intros p n n' Hok H; cbn [insert] in H.
  - injection H as <-.
    assert (Hat : forall u, at_ u (set_payload (Some p) n) = match u with [] => Some (set_payload (Some p) n) | _ => at_ u n end).
    { intros [|[s|w] u]; reflexivity. }
    split; [|split].
    + intros u m H. rewrite Hat in H. destruct u as [|x u]; [|exact (Hok _ _ H)]. injection H as <-.
      exact (Hok [] n eq_refl).
    + intros u. unfold payload_at. rewrite Hat. destruct (tmpl_eq_dec u []) as [->|Hu]; [reflexivity|].
      destruct u; [contradiction|reflexivity].
    + intros u. unfold has_at. rewrite Hat, prefix_nil. destruct u; split; intros H; try tauto; try (left; discriminate); try discriminate.
      destruct H as [H|H]; [exact H|discriminate].
  - assert (K : exists c c', insert t p c = Some c' /\ tree_ok c /\
       (forall u, at_ (SStatic s :: u) n = at_ u c \/ (statics_get n s = None /\ c = new_node None)) /\
       (forall key, statics_get n' key = if beqb s key then Some c' else statics_get n key) /\
       (statics_get n s = Some c \/ (statics_get n s = None /\ c = new_node None)) /\
       n_next n' = n_next n /\ n_payload n' = n_payload n /\ n_wildcard n' = n_wildcard n /\ n_is_wildcard n' = n_is_wildcard n /\ node_ok n').
    { destruct (statics_get n s) as [c|] eqn:E.
      - destruct (insert t p c) as [c'|] eqn:E2; [|discriminate]. injection H as <-. exists c, c'.
        split; [exact E2|]. split. { intros u m Hm. apply (Hok (SStatic s :: u)). cbn [at_]. rewrite E. exact Hm. }
        split. { intros u. left. cbn [at_]. rewrite E. reflexivity. }
        split. { intros key. apply get_change. congruence. }
        split; [left; reflexivity|]. destruct (change_rest n s c') as (R1 & R2 & R3 & R4).
        split; [exact R1|]. split; [exact R2|]. split; [exact R3|]. split; [exact R4|]. apply change_ok. exact (Hok [] n eq_refl).
      - destruct (insert t p (new_node None)) as [c'|] eqn:E2; [|discriminate]. injection H as <-. exists (new_node None), c'.
        split; [exact E2|]. split. { intros u m Hm. apply new_at in Hm. destruct Hm as [_ ->]. apply new_ok. }
        split. { intros u. right. auto. }
        split. { intros key. apply get_add; [exact (Hok [] n eq_refl)|exact E]. }
        split; [right; auto|]. destruct (add_rest n s c') as (R1 & R2 & R3 & R4).
        split; [exact R1|]. split; [exact R2|]. split; [exact R3|]. split; [exact R4|]. apply add_ok; [exact (Hok [] n eq_refl)|exact E]. }
    destruct K as (c & c' & K1 & K2 & _ & K4 & K5 & K6 & K7 & K8 & K9 & K10).
    destruct (IH p c c' K2 K1) as (I1 & I2 & I3).
    assert (Hs : forall u, at_ (SStatic s :: u) n' = at_ u c') by (intros u; cbn [at_]; rewrite K4, beqb_refl; reflexivity).
    assert (Ho : forall x u, x <> SStatic s -> at_ (x :: u) n' = at_ (x :: u) n).
    { intros [s2|w2] u Hx; cbn [at_].
      - rewrite K4. replace (beqb s s2) with false; [reflexivity|]. symmetry. apply beqb_neq. congruence.
      - rewrite K6, K8, K9. reflexivity. }
    assert (Hp : forall u, payload_at c u = payload_at n (SStatic s :: u)).
    { intros u. unfold payload_at. cbn [at_]. destruct K5 as [-> | [-> ->]]; [reflexivity|].
      destruct (at_ u (new_node None)) eqn:E; [|reflexivity]. apply new_at in E. destruct E as [_ ->]. reflexivity. }
    assert (Hh : forall u, has_at n (SStatic s :: u) -> has_at c u).
    { intros u. unfold has_at. cbn [at_]. destruct K5 as [-> | [-> ->]]; tauto. }
    split; [|split].
    + intros u m Hm. destruct u as [|x u]; [injection Hm as <-; exact K10|].
      destruct (seg_eq_dec x (SStatic s)) as [->|Hx]; [rewrite Hs in Hm; exact (I1 _ _ Hm)|].
      rewrite Ho in Hm by exact Hx. exact (Hok _ _ Hm).
    + intros u. destruct u as [|x u].
      * destruct (tmpl_eq_dec [] (SStatic s :: t)) as [Hd|Hd]; [discriminate|]. unfold payload_at. cbn [at_]. rewrite K7. reflexivity.
      * destruct (seg_eq_dec x (SStatic s)) as [->|Hx].
        -- unfold payload_at at 1. rewrite Hs. fold (payload_at c' u). rewrite I2.
           destruct (tmpl_eq_dec u t) as [->|Hu]; destruct (tmpl_eq_dec (SStatic s :: _) (SStatic s :: t)) as [He|He]; try congruence; apply Hp.
        -- unfold payload_at at 1. rewrite Ho by exact Hx. destruct (tmpl_eq_dec (x :: u) (SStatic s :: t)); [congruence|reflexivity].
    + intros u. destruct u as [|x u].
      * split; [intros _; left; discriminate|intros _; discriminate].
      * destruct (seg_eq_dec x (SStatic s)) as [->|Hx].
        -- unfold has_at at 1. rewrite Hs. fold (has_at c' u). rewrite I3, prefix_cons. split.
           ++ intros [H1|H1]; [|right; auto]. destruct K5 as [E | [E ->]]; [left; unfold has_at; cbn [at_]; rewrite E; exact H1|].
              destruct (at_ u (new_node None)) eqn:E2; [|contradiction]. apply new_at in E2. destruct E2 as [-> _]. right. split; [reflexivity|exists t; reflexivity].
           ++ intros [H1|[_ H1]]; [left; apply Hh; exact H1|right; exact H1].
        -- unfold has_at at 1. rewrite Ho by exact Hx. rewrite prefix_cons. unfold has_at. intuition congruence.
  - destruct (n_is_wildcard n && negb (beqb w (n_wildcard n))) eqn:Ew; [discriminate|].
    set (c := match n_next n with Some x => x | None => new_node None end) in H.
    destruct (insert t p c) as [c'|] eqn:E; [|discriminate]. injection H as <-.
    pose proof (Hok [] n eq_refl) as [N1 N2].
    assert (Hw : n_is_wildcard n = true -> n_wildcard n = w).
    { intros Hi. rewrite Hi in Ew. cbn in Ew. apply negb_false_iff, beqb_eq in Ew. auto. }
    assert (Hc : forall u, at_ (SWild w :: u) n = if n_is_wildcard n then at_ u c else None).
    { intros u. cbn [at_]. destruct (n_is_wildcard n) eqn:Hi; [|reflexivity]. rewrite (Hw eq_refl), beqb_refl. cbn [andb]. unfold c.
      destruct (n_next n); [reflexivity|]. exfalso. apply N2; reflexivity. }
    assert (Hn : n_is_wildcard n = false -> c = new_node None).
    { intros Hi. unfold c. destruct (n_next n) eqn:En; [|reflexivity]. assert (n_is_wildcard n = true) by (apply N2; discriminate). congruence. }
    assert (Hcok : tree_ok c).
    { destruct (n_is_wildcard n) eqn:Hi.
      - intros u m Hm. apply (Hok (SWild w :: u)). rewrite Hc. exact Hm.
      - rewrite (Hn eq_refl). intros u m Hm. apply new_at in Hm. destruct Hm as [_ ->]. apply new_ok. }
    destruct (IH p c c' Hcok E) as (I1 & I2 & I3).
    set (n' := set_wild w (Some c') n).
    assert (Hs : forall u, at_ (SWild w :: u) n' = at_ u c').
    { intros u. cbn [at_]. unfold n'. cbn [set_wild n_is_wildcard n_wildcard n_next]. rewrite beqb_refl. reflexivity. }
    assert (Ho : forall x u, x <> SWild w -> at_ (x :: u) n' = at_ (x :: u) n).
    { intros [s2|w2] u Hx; cbn [at_]; unfold n'; [reflexivity|].
      cbn [set_wild n_is_wildcard n_wildcard n_next andb]. replace (beqb w w2) with false by (symmetry; apply beqb_neq; congruence).
      destruct (n_is_wildcard n) eqn:Hi; [|reflexivity]. rewrite (Hw eq_refl). replace (beqb w w2) with false by (symmetry; apply beqb_neq; congruence). reflexivity. }
    assert (Hp : forall u, payload_at c u = payload_at n (SWild w :: u)).
    { intros u. unfold payload_at. rewrite Hc. destruct (n_is_wildcard n); [reflexivity|]. rewrite (Hn eq_refl).
      destruct (at_ u (new_node None)) eqn:E2; [|reflexivity]. apply new_at in E2. destruct E2 as [_ ->]. reflexivity. }
    split; [|split].
    + intros u m Hm. destruct u as [|x u].
      * injection Hm as <-. split; [exact N1|]. unfold n'. cbn. split; [discriminate|reflexivity].
      * destruct (seg_eq_dec x (SWild w)) as [->|Hx]; [rewrite Hs in Hm; exact (I1 _ _ Hm)|].
        rewrite Ho in Hm by exact Hx. exact (Hok _ _ Hm).
    + intros u. destruct u as [|x u].
      * destruct (tmpl_eq_dec [] (SWild w :: t)) as [Hd|Hd]; [discriminate|]. reflexivity.
      * destruct (seg_eq_dec x (SWild w)) as [->|Hx].
        -- unfold payload_at at 1. rewrite Hs. fold (payload_at c' u). rewrite I2.
           destruct (tmpl_eq_dec u t) as [->|Hu]; destruct (tmpl_eq_dec (SWild w :: _) (SWild w :: t)) as [He|He]; try congruence; apply Hp.
        -- unfold payload_at at 1. rewrite Ho by exact Hx. destruct (tmpl_eq_dec (x :: u) (SWild w :: t)); [congruence|reflexivity].
    + intros u. destruct u as [|x u].
      * split; [intros _; left; discriminate|intros _; discriminate].
      * destruct (seg_eq_dec x (SWild w)) as [->|Hx].
        -- unfold has_at at 1. rewrite Hs. fold (has_at c' u). rewrite I3, prefix_cons. unfold has_at. rewrite Hc. split.
           ++ intros [H1|H1]; [|right; auto]. destruct (n_is_wildcard n); [left; exact H1|]. rewrite (Hn eq_refl) in H1.
              destruct (at_ u (new_node None)) eqn:E2; [|contradiction]. apply new_at in E2. destruct E2 as [-> _]. right. split; [reflexivity|exists t; reflexivity].
           ++ intros [H1|[_ H1]]; [|right; exact H1]. left. destruct (n_is_wildcard n); [exact H1|congruence].
        -- unfold has_at at 1. rewrite Ho by exact Hx. rewrite prefix_cons. unfold has_at. intuition congruence.
Qed.

(* when insertion fails *)
Theorem insert_none : forall t p n, tree_ok n ->
  (insert t p n = None <-> exists pre w r w', t = pre ++ SWild w :: r /\ w <> w' /\ has_at n (pre ++ [SWild w'])).
Proof.
  induction t as [|[s|w] t IH]; intros p n Hok; cbn [insert].
  - split; [discriminate|]. intros (pre & w & r & w' & H & _). destruct pre; discriminate.
  - assert (K : insert (SStatic s :: t) p n = None <-> exists c, insert t p c = None /\
       (statics_get n s = Some c \/ (statics_get n s = None /\ c = new_node None))).
    { cbn [insert]. destruct (statics_get n s) as [c|] eqn:E.
      - split; [intros H; exists c; destruct (insert t p c); [discriminate|auto]|].
        intros (c0 & H1 & [H2|[H2 _]]); [|discriminate]. injection H2 as <-. rewrite H1. reflexivity.
      - split; [intros H; exists (new_node None); destruct (insert t p (new_node None)); [discriminate|auto]|].
        intros (c0 & H1 & [H2|[_ ->]]); [discriminate|]. rewrite H1. reflexivity. }
    cbn [insert] in K. rewrite K. split.
    + intros (c & H1 & H2). assert (Hc : tree_ok c).
      { destruct H2 as [H2|[_ ->]]; [|intros u m Hm; apply new_at in Hm; destruct Hm as [_ ->]; apply new_ok].
        intros u m Hm. apply (Hok (SStatic s :: u)). cbn [at_]. rewrite H2. exact Hm. }
      apply (IH p c Hc) in H1. destruct H1 as (pre & w & r & w' & -> & Hw & Hh).
      exists (SStatic s :: pre), w, r, w'. split; [reflexivity|]. split; [exact Hw|]. unfold has_at in *. cbn [app at_].
      destruct H2 as [-> | [-> ->]]; [exact Hh|].
      destruct (at_ (pre ++ [SWild w']) (new_node None)) eqn:E; [|contradiction]. apply new_at in E. destruct E as [E _]. destruct pre; discriminate.
    + intros (pre & w & r & w' & H & Hw & Hh). destruct pre as [|x pre]; [discriminate|]. injection H as <- ->.
      unfold has_at in Hh. cbn [app at_] in Hh. destruct (statics_get n s) as [c|] eqn:E; [|congruence]. exists c. split; [|auto].
      apply IH. { intros u m Hm. apply (Hok (SStatic s :: u)). cbn [at_]. rewrite E. exact Hm. }
      exists pre, w, r, w'. split; [reflexivity|]. split; [exact Hw|exact Hh].
  - destruct (n_is_wildcard n && negb (beqb w (n_wildcard n))) eqn:Ew.
    + split; [intros _|reflexivity]. apply andb_prop in Ew. destruct Ew as [Ei Ew]. apply negb_true_iff, beqb_neq in Ew.
      exists [], w, t, (n_wildcard n). split; [reflexivity|]. split; [exact Ew|]. unfold has_at. cbn [app at_]. rewrite Ei, beqb_refl. cbn [andb].
      destruct (Hok [] n eq_refl) as [_ N2]. apply N2 in Ei. destruct (n_next n); [discriminate|congruence].
    + set (c := match n_next n with Some x => x | None => new_node None end).
      pose proof (Hok [] n eq_refl) as [_ N2].
      assert (Hw : n_is_wildcard n = true -> n_wildcard n = w).
      { intros Hi. rewrite Hi in Ew. cbn in Ew. apply negb_false_iff, beqb_eq in Ew. auto. }
      assert (Hc : forall u, at_ (SWild w :: u) n = if n_is_wildcard n then at_ u c else None).
      { intros u. cbn [at_]. destruct (n_is_wildcard n) eqn:Hi; [|reflexivity]. rewrite (Hw eq_refl), beqb_refl. cbn [andb]. unfold c.
        destruct (n_next n); [reflexivity|]. exfalso. apply N2; reflexivity. }
      assert (Hn : n_is_wildcard n = false -> c = new_node None).
      { intros Hi. unfold c. destruct (n_next n) eqn:En; [|reflexivity]. assert (n_is_wildcard n = true) by (apply N2; discriminate). congruence. }
      assert (Hcok : tree_ok c).
      { destruct (n_is_wildcard n) eqn:Hi.
        - intros u m Hm. apply (Hok (SWild w :: u)). rewrite Hc. exact Hm.
        - rewrite (Hn eq_refl). intros u m Hm. apply new_at in Hm. destruct Hm as [_ ->]. apply new_ok. }
      assert (K : match insert t p c with Some x => Some (set_wild w (Some x) n) | None => None end = None <-> insert t p c = None)
        by (destruct (insert t p c); split; congruence).
      rewrite K, (IH p c Hcok). split.
      * intros (pre & w1 & r & w' & -> & Hd & Hh). exists (SWild w :: pre), w1, r, w'. split; [reflexivity|]. split; [exact Hd|].
        unfold has_at in *. cbn [app]. rewrite Hc. destruct (n_is_wildcard n); [exact Hh|]. rewrite (Hn eq_refl) in Hh.
        destruct (at_ (pre ++ [SWild w']) (new_node None)) eqn:E; [|contradiction]. apply new_at in E. destruct E as [E _]. destruct pre; discriminate.
      * intros (pre & w1 & r & w' & H & Hd & Hh). destruct pre as [|x pre].
        -- injection H as <- <-. exfalso. unfold has_at in Hh. cbn [app at_] in Hh. destruct (n_is_wildcard n) eqn:Hi; [|cbn in Hh; congruence].
           rewrite (Hw eq_refl) in Hh. destruct (beqb w w') eqn:E; [apply beqb_eq in E; contradiction|]. cbn in Hh. congruence.
        -- injection H as <- ->. exists pre, w1, r, w'. split; [reflexivity|]. split; [exact Hd|]. unfold has_at in *. cbn [app] in Hh. rewrite Hc in Hh.
           destruct (n_is_wildcard n); [exact Hh|congruence].
Qed.

(* ---- many insertions ---- *)
Fixpoint insert_all (ts : list (list seg * P)) (n : node) : option node :=
  match ts with
  | [] => Some n
  | (t, p) :: ts' => match insert t p n with Some n' => insert_all ts' n' | None => None end
  end.
Lemma insert_all_spec : forall ts n n', tree_ok n -> insert_all ts n = Some n' -> NoDup (map fst ts) ->
  tree_ok n' /\
  (forall t p, In (t, p) ts -> payload_at n' t = Some p) /\
  (forall t, ~ In t (map fst ts) -> payload_at n' t = payload_at n t) /\
  (forall u, has_at n' u <-> has_at n u \/ exists t, In t (map fst ts) /\ prefix_of u t).
Proof.
  induction ts as [|[t p] ts IH]; intros n n' Hok H Hnd; cbn [insert_all map fst In] in *.
  - injection H as <-. split; [exact Hok|]. split; [intros ? ? []|]. split; [reflexivity|].
    intros u. split; [auto|]. intros [H|(t & [] & _)]. exact H.
  - destruct (insert t p n) as [n1|] eqn:E; [|discriminate]. inversion Hnd as [|? ? N1 N2]; subst.
    destruct (insert_spec _ _ _ _ Hok E) as (I1 & I2 & I3). destruct (IH n1 n' I1 H N2) as (J1 & J2 & J3 & J4).
    split; [exact J1|]. split; [|split].
    + intros t0 p0 [Hi|Hi]; [|apply J2; exact Hi]. injection Hi as <- <-. rewrite J3 by exact N1. rewrite I2.
      destruct (tmpl_eq_dec t t); [reflexivity|congruence].
    + intros t0 Hi. rewrite J3 by (intros H1; apply Hi; right; exact H1). rewrite I2. destruct (tmpl_eq_dec t0 t); [|reflexivity]. exfalso. apply Hi. left. congruence.
    + intros u. rewrite J4, I3. split.
      * intros [[H1|H1]|(t0 & H1 & H2)]; [auto| |]; right; eexists; split; [left; reflexivity|exact H1|right; exact H1|exact H2].
      * intros [H1|(t0 & [<-|H1] & H2)]; [auto|auto|]. right. exists t0. auto.
Qed.
(* names seen anywhere below the root come from inserted templates *)
Lemma insert_all_none : forall ts n, tree_ok n -> (insert_all ts n = None <->
  exists ts1 t p ts2 pre w r w', ts = ts1 ++ (t, p) :: ts2 /\ t = pre ++ SWild w :: r /\ w <> w' /\
    (has_at n (pre ++ [SWild w']) \/ exists t', In t' (map fst ts1) /\ prefix_of (pre ++ [SWild w']) t')).
Proof.
  induction ts as [|[t p] ts IH]; intros n Hok; cbn [insert_all].
  - split; [discriminate|]. intros (ts1 & t & p & ts2 & pre & w & r & w' & H & _). destruct ts1; discriminate.
  - destruct (insert t p n) as [n1|] eqn:E.
    + destruct (insert_spec _ _ _ _ Hok E) as (I1 & I2 & I3). rewrite (IH n1 I1). split.
      * intros (ts1 & t1 & p1 & ts2 & pre & w & r & w' & -> & H2 & H3 & H4).
        exists ((t, p) :: ts1), t1, p1, ts2, pre, w, r, w'. split; [reflexivity|]. split; [exact H2|]. split; [exact H3|].
        destruct H4 as [H4|(t' & H4 & H5)].
        -- apply I3 in H4. destruct H4 as [H4|H4]; [left; exact H4|]. right. exists t. split; [left; reflexivity|exact H4].
        -- right. exists t'. split; [right; exact H4|exact H5].
      * intros (ts1 & t1 & p1 & ts2 & pre & w & r & w' & H1 & H2 & H3 & H4). destruct ts1 as [|x ts1].
        -- injection H1 as <- <- <-. destruct H4 as [H4|(t' & [] & _)]. exfalso.
           assert (insert t p n = None) by (apply insert_none; [exact Hok|]; exists pre, w, r, w'; auto). congruence.
        -- injection H1 as <- ->. exists ts1, t1, p1, ts2, pre, w, r, w'. split; [reflexivity|]. split; [exact H2|]. split; [exact H3|].
           cbn [map fst In] in H4. destruct H4 as [H4|(t' & [<-|H4] & H5)]; [left; apply I3; auto|left; apply I3; auto|right; exists t'; auto].
    + split; [intros _|reflexivity]. apply insert_none in E; [|exact Hok]. destruct E as (pre & w & r & w' & H1 & H2 & H3).
      exists [], t, p, ts, pre, w, r, w'. split; [reflexivity|]. auto.
Qed.
(* starting from a root without branches *)
Theorem all_inserted : forall ts root, (insert_all ts (new_node root) = None <-> Clash (map fst ts)).
Proof.
  intros ts root. assert (Hok : tree_ok (new_node root)) by (intros t m H; apply new_at in H; destruct H as [_ ->]; apply new_ok).
  rewrite (insert_all_none _ _ Hok). split.
  - intros (ts1 & t & p & ts2 & pre & w & r & w' & -> & -> & H & [H1|(t' & H1 & (r' & H2))]).
    + exfalso. unfold has_at in H1. destruct (at_ (pre ++ [SWild w']) (new_node root)) eqn:E; [|congruence].
      apply new_at in E. destruct E as [E _]. destruct pre; discriminate.
    + exists pre, w, w', r, r'. split; [exact H|]. rewrite map_app. cbn [map fst]. split.
      * apply in_or_app. right. left. reflexivity.
      * apply in_or_app. left. rewrite <- app_assoc in H2. cbn [app] in H2. rewrite <- H2. exact H1.
  - intros (pre & n1 & n2 & r1 & r2 & Hd & H1 & H2).
    assert (K : forall t1 t2, In t1 (map fst ts) -> In t2 (map fst ts) -> t1 <> t2 ->
       exists ts1 t p ts2 t', ts = ts1 ++ (t, p) :: ts2 /\ In t' (map fst ts1) /\ ((t = t1 /\ t' = t2) \/ (t = t2 /\ t' = t1))).
    { clear. intros t1 t2. induction ts as [|[t p] ts IH]; intros H1 H2 Hd; [destruct H1|].
      assert (Step : forall t', In t' (map fst ts) -> t' <> t -> (t1 = t /\ t2 = t') \/ (t1 = t' /\ t2 = t) ->
        exists ts1 t0 p0 ts2 t'0, (t, p) :: ts = ts1 ++ (t0, p0) :: ts2 /\ In t'0 (map fst ts1) /\ ((t0 = t1 /\ t'0 = t2) \/ (t0 = t2 /\ t'0 = t1))).
      { intros t' Hi _ Hc. apply in_map_iff in Hi. destruct Hi as ([t0 p0] & E & Hi). cbn in E. subst. apply in_split in Hi.
        destruct Hi as (l1 & l2 & ->). exists ((t, p) :: l1), t', p0, l2, t. split; [reflexivity|]. split; [left; reflexivity|].
        destruct Hc as [[-> ->]|[-> ->]]; auto. }
      cbn [map fst In] in H1, H2. destruct H1 as [H1|H1], H2 as [H2|H2].
      - congruence.
      - subst. apply (Step t2 H2); auto.
      - subst. apply (Step t1 H1); auto.
      - destruct (IH H1 H2 Hd) as (ts1 & t0 & p0 & ts2 & t' & -> & K2 & K3). exists ((t, p) :: ts1), t0, p0, ts2, t'.
        split; [reflexivity|]. split; [right; exact K2|exact K3]. }
    assert (Hne : pre ++ SWild n1 :: r1 <> pre ++ SWild n2 :: r2) by (intros E; apply app_inv_head in E; congruence).
    destruct (K _ _ H1 H2 Hne) as (ts1 & t & p & ts2 & t' & E & Hi & [[-> ->]|[-> ->]]).
    + exists ts1, (pre ++ SWild n1 :: r1), p, ts2, pre, n1, r1, n2. split; [exact E|]. split; [reflexivity|]. split; [exact Hd|].
      right. exists (pre ++ SWild n2 :: r2). split; [exact Hi|]. exists r2. rewrite <- app_assoc. reflexivity.
    + exists ts1, (pre ++ SWild n2 :: r2), p, ts2, pre, n2, r2, n1. split; [exact E|]. split; [reflexivity|]. split; [congruence|].
      right. exists (pre ++ SWild n1 :: r1). split; [exact Hi|]. exists r1. rewrite <- app_assoc. reflexivity.
Qed.

(* ---- matching ---- *)
Fixpoint walk (n : node) (parts : list bytes) (params : storage) : mres P :=
  match parts with
  | [] => match n_payload n with Some p => MFound p params | None => MNone params end
  | s :: parts' =>
      match process_segment params s n with
      | (None, params') => MNone params'
      | (Some (Some c), params') => walk c parts' params'
      | (Some None, _) => MPanic
      end
  end.
Lemma join_cons : forall s ss, ss <> [] -> join_slash (s :: ss) = s ++ SLASH :: join_slash ss.
Proof. intros s [|x ss] H; [contradiction|reflexivity]. Qed.
Lemma last_cons : forall A (x : A) l d, l <> [] -> last (x :: l) d = last l d.
Proof. intros A x [|y l] d H; [contradiction|reflexivity]. Qed.
Lemma loop_cons : forall fuel s rest path (n : node) params, slash_free s -> path = s ++ SLASH :: rest \/ (path = s /\ s <> [] /\ rest = []) ->
  (List.length path <= fuel)%nat -> exists f, (List.length rest <= f)%nat /\
  match_loop fuel n path params =
  match process_segment params s n with
  | (None, params') => MNone params'
  | (Some (Some c), params') => match_loop f c rest params'
  | (Some None, _) => MPanic
  end.
Proof.
  intros fuel s rest path n params Hs Hp Hf.
  assert (Hc : match cut path SLASH with Some (a, b) => (a, b) | None => (path, []) end = (s, rest)).
  { destruct Hp as [-> | (-> & _ & ->)]; [rewrite cut_app by exact Hs; reflexivity|].
    destruct (cut s SLASH) as [[a b]|] eqn:E; [|reflexivity]. exfalso. apply Hs.
    assert (E2 : cut s SLASH <> None) by congruence. rewrite cut_none in E2. destruct (in_dec byte_eq_dec SLASH s); [assumption|contradiction]. }
  assert (Hl : path <> [] /\ (List.length rest < List.length path)%nat).
  { destruct Hp as [-> | (-> & Hn & ->)].
    - split; [destruct s; discriminate|]. rewrite app_length. cbn. lia.
    - split; [exact Hn|]. destruct s; [contradiction|cbn; lia]. }
  destruct Hl as [Hn Hl]. destruct path as [|x path]; [contradiction|].
  destruct fuel as [|f]; [cbn in Hf; lia|]. exists f. split; [lia|]. cbn [match_loop]. destruct (cut (x :: path) SLASH) as [[a b]|]; inversion Hc; subst; reflexivity.
Qed.
Lemma match_walk : forall parts path (n : node) params, PathOf parts path -> match_path n path params = walk n parts params.
Proof.
  intros parts path n params [Hs Hp].
  assert (K : forall parts rest fuel n params, Forall slash_free parts ->
     (last parts [x00] <> [] /\ rest = join_slash parts) \/ (parts <> [] /\ rest = join_slash parts ++ [SLASH]) ->
     (List.length rest <= fuel)%nat -> match_loop fuel n rest params = walk n parts params).
  { clear. induction parts as [|s parts IH]; intros rest fuel n params Hs Hp Hf.
    - destruct Hp as [[_ ->]|[H _]]; [|contradiction]. destruct fuel; reflexivity.
    - inversion Hs as [|? ? Hs1 Hs2]; subst. cbn [walk].
      assert (E : exists rest', ((last parts [x00] <> [] /\ rest' = join_slash parts) \/ (parts <> [] /\ rest' = join_slash parts ++ [SLASH])) /\
        (rest = s ++ SLASH :: rest' \/ (rest = s /\ s <> [] /\ rest' = []))).
      { destruct parts as [|s2 parts].
        - exists []. split; [left; split; [discriminate|reflexivity]|]. cbn in Hp. destruct Hp as [[H1 ->]|[_ ->]]; [right|left]; auto.
        - destruct Hp as [[H1 ->]|[_ ->]].
          + exists (join_slash (s2 :: parts)). rewrite last_cons in H1 by discriminate. split; [left; auto|]. left. apply join_cons. discriminate.
          + exists (join_slash (s2 :: parts) ++ [SLASH]). split; [right; split; [discriminate|reflexivity]|]. left.
            rewrite join_cons by discriminate. rewrite <- app_assoc. reflexivity. }
      destruct E as (rest' & E1 & E2). destruct (loop_cons fuel s rest' rest n params Hs1 E2 Hf) as (f & F1 & ->).
      destruct (process_segment params s n) as [[[c|]|] ps]; try reflexivity. apply IH; assumption. }
  destruct Hp as [[H1 ->]|[H1 ->]]; cbn [match_path]; rewrite beq_refl; apply K; auto.
Qed.
Lemma path_parts : forall path, exists parts, PathOf parts (SLASH :: path).
Proof.
  assert (K : forall n path, (List.length path <= n)%nat -> exists parts, PathOf parts (SLASH :: path)).
  { induction n as [|n IH]; intros path Hl.
    - destruct path; [|cbn in Hl; lia]. exists []. split; [constructor|]. left. split; [discriminate|reflexivity].
    - destruct (cut path SLASH) as [[a b]|] eqn:E.
      + apply cut_some in E. destruct E as [-> Ha]. destruct b as [|x b].
        * exists [a]. split; [constructor; [exact Ha|constructor]|]. right. split; [discriminate|reflexivity].
        * destruct (IH (x :: b)) as (parts & P1 & P2). { rewrite app_length in Hl. cbn in *. lia. }
          assert (Hne : parts <> []). { destruct parts; [|discriminate]. destruct P2 as [[_ P2]|[P2 _]]; [discriminate P2|congruence]. }
          exists (a :: parts). split; [constructor; assumption|]. destruct P2 as [[P2 P3]|[_ P3]]; injection P3 as P3.
          -- left. rewrite last_cons by exact Hne. split; [exact P2|]. rewrite join_cons by exact Hne. rewrite <- P3. reflexivity.
          -- right. split; [discriminate|]. rewrite join_cons by exact Hne. rewrite <- app_assoc. cbn [app]. rewrite <- P3. reflexivity.
      + apply cut_none in E. destruct path as [|x path].
        * exists []. split; [constructor|]. left. split; [discriminate|reflexivity].
        * exists [x :: path]. split; [constructor; [exact E|constructor]|]. left. split; [discriminate|reflexivity]. }
  intros path. apply (K (List.length path)). lia.
Qed.

Lemma add_params_cons : forall s k v ps, add_params (kv_add s k v) ps = add_params s ((k, v) :: ps).
Proof. reflexivity. Qed.
Lemma walk_found : forall t parts ps, Binds t parts ps -> forall n p params, tree_ok n -> payload_at n t = Some p ->
  (forall pre name rest v, t = pre ++ SWild name :: rest -> nth_error parts (List.length pre) = Some v -> ~ has_at n (pre ++ [SStatic v])) ->
  walk n parts params = MFound p (add_params params ps).
Proof.
  intros t parts ps HB. induction HB as [|s t parts ps HB IH|w v t parts ps Hv HB IH]; intros n p params Hok Hp Hb; cbn [walk].
  - unfold payload_at in Hp. cbn [at_] in Hp. rewrite Hp. reflexivity.
  - unfold payload_at in Hp. cbn [at_] in Hp. unfold process_segment. destruct (statics_get n s) as [c|] eqn:E; [|discriminate].
    apply IH; [|exact Hp|].
    + intros u m Hm. apply (Hok (SStatic s :: u)). cbn [at_]. rewrite E. exact Hm.
    + intros pre name rest v0 -> Hn Hh. apply (Hb (SStatic s :: pre) name rest v0); [reflexivity|exact Hn|].
      unfold has_at in *. cbn [app at_]. rewrite E. exact Hh.
  - unfold payload_at in Hp. cbn [at_] in Hp. destruct (n_is_wildcard n) eqn:Ei; [|discriminate]. cbn [andb] in Hp.
    destruct (beqb (n_wildcard n) w) eqn:Ew; [|discriminate]. apply beqb_eq in Ew. destruct (n_next n) as [c|] eqn:En; [|discriminate].
    unfold process_segment.
    assert (E : statics_get n v = None).
    { destruct (statics_get n v) as [x|] eqn:E; [|reflexivity]. exfalso. apply (Hb [] w t v); [reflexivity|reflexivity|].
      unfold has_at. cbn [app at_]. rewrite E. discriminate. }
    rewrite E, Ei. cbn [negb orb]. replace (beqb v []) with false by (destruct v; [contradiction|reflexivity]).
    rewrite En. rewrite (IH c p).
    + rewrite Ew. destruct w; reflexivity.
    + intros u m Hm. apply (Hok (SWild w :: u)). cbn [at_]. rewrite Ei, Ew, beqb_refl, En. exact Hm.
    + exact Hp.
    + intros pre name rest v0 -> Hn Hh. apply (Hb (SWild w :: pre) name rest v0); [reflexivity|exact Hn|].
      unfold has_at in *. cbn [app at_]. rewrite Ei, Ew, beqb_refl, En. exact Hh.
Qed.
Lemma walk_inv : forall parts (n : node) params, tree_ok n ->
  match walk n parts params with
  | MFound p params' => exists t ps, Binds t parts ps /\ payload_at n t = Some p /\ params' = add_params params ps /\
      (forall pre name rest v, t = pre ++ SWild name :: rest -> nth_error parts (List.length pre) = Some v -> ~ has_at n (pre ++ [SStatic v]))
  | MNone _ => True
  | _ => False
  end.
Proof.
  induction parts as [|s parts IH]; intros n params Hok; cbn [walk].
  - destruct (n_payload n) as [p|] eqn:E; [|exact I]. exists [], []. split; [constructor|]. split; [exact E|]. split; [reflexivity|].
    intros pre name rest v H. destruct pre; discriminate.
  - unfold process_segment. destruct (statics_get n s) as [c|] eqn:E.
    + assert (Hc : tree_ok c). { intros u m Hm. apply (Hok (SStatic s :: u)). cbn [at_]. rewrite E. exact Hm. }
      specialize (IH c params Hc). destruct (walk c parts params); try exact IH. destruct IH as (t & ps & I1 & I2 & I3 & I4).
      exists (SStatic s :: t), ps. split; [constructor; exact I1|]. split; [unfold payload_at in *; cbn [at_]; rewrite E; exact I2|].
      split; [exact I3|]. intros pre name rest v Ht Hn Hh. destruct pre as [|x pre]; [discriminate|]. injection Ht as <- ->.
      apply (I4 pre name rest v eq_refl Hn). unfold has_at in *. cbn [app at_] in Hh. rewrite E in Hh. exact Hh.
    + destruct (n_is_wildcard n) eqn:Ei; cbn [negb orb]; [|exact I]. destruct (beqb s []) eqn:Es; [exact I|].
      destruct (Hok [] n eq_refl) as [_ N2]. assert (Hne : n_next n <> None) by (apply N2; exact Ei).
      destruct (n_next n) as [c|] eqn:En; [|contradiction].
      set (params' := match n_wildcard n with [] => params | _ => kv_add params (n_wildcard n) s end).
      assert (Hc : tree_ok c). { intros u m Hm. apply (Hok (SWild (n_wildcard n) :: u)). cbn [at_]. rewrite Ei, beqb_refl, En. exact Hm. }
      assert (Hpp : params' = add_params params (match n_wildcard n with [] => [] | _ => [(n_wildcard n, s)] end)).
      { unfold params'. destruct (n_wildcard n); reflexivity. }
      assert (Hgoal : match walk c parts params' with
        | MFound p params'0 => exists t ps, Binds t (s :: parts) ps /\ payload_at n t = Some p /\ params'0 = add_params params ps /\
            (forall pre name rest v, t = pre ++ SWild name :: rest -> nth_error (s :: parts) (List.length pre) = Some v -> ~ has_at n (pre ++ [SStatic v]))
        | MNone _ => True | _ => False end).
      { specialize (IH c params' Hc). destruct (walk c parts params'); try exact IH. destruct IH as (t & ps & I1 & I2 & I3 & I4).
        exists (SWild (n_wildcard n) :: t), ((match n_wildcard n with [] => [] | _ => [(n_wildcard n, s)] end) ++ ps).
        split; [constructor; [apply beqb_neq in Es; exact Es|exact I1]|].
        split; [unfold payload_at in *; cbn [at_]; rewrite Ei, beqb_refl, En; exact I2|].
        split; [rewrite I3, Hpp; unfold add_params; rewrite fold_left_app; reflexivity|].
        intros pre name rest v Ht Hn Hh. destruct pre as [|x pre].
        - injection Ht as <- <-. cbn in Hn. injection Hn as <-. unfold has_at in Hh. cbn [app at_] in Hh. rewrite E in Hh. congruence.
        - injection Ht as <- ->. apply (I4 pre name rest v eq_refl Hn). unfold has_at in *. cbn [app at_] in Hh. rewrite Ei, beqb_refl, En in Hh. exact Hh. }
      destruct (n_wildcard n); exact Hgoal.
Qed.

(* ---- the whole: templates inserted in any order, then a path looked up ---- *)
Theorem tree_match : forall ts root (n : node) parts path params, NoDup (map fst ts) -> insert_all ts (new_node root) = Some n -> PathOf parts path ->
  (forall t p ps, In (t, p) ts -> Binds t parts ps -> ~ Beaten (map fst ts) t parts ->
     match_path n path params = MFound p (add_params params ps)) /\
  match match_path n path params with
  | MFound p params' =>
      (exists t ps, In (t, p) ts /\ Binds t parts ps /\ ~ Beaten (map fst ts) t parts /\ params' = add_params params ps) \/
      (root = Some p /\ parts = [] /\ ~ In [] (map fst ts) /\ params' = params)
  | MNone _ => True
  | _ => False
  end.
Proof.
  intros ts root n parts path params Hnd Hin Hp.
  assert (Hok0 : tree_ok (new_node root)) by (intros t m H; apply new_at in H; destruct H as [_ ->]; apply new_ok).
  destruct (insert_all_spec _ _ _ Hok0 Hin Hnd) as (S1 & S2 & S3 & S4).
  assert (Hb : forall t, (forall pre name rest v, t = pre ++ SWild name :: rest -> nth_error parts (List.length pre) = Some v -> ~ has_at n (pre ++ [SStatic v])) <->
                ~ Beaten (map fst ts) t parts).
  { intros t. split.
    - intros H (pre & name & rest & v & rest' & -> & B2 & B3). apply (H pre name rest v eq_refl B3). apply S4. right.
      exists (pre ++ SStatic v :: rest'). split; [exact B2|]. exists rest'. rewrite <- app_assoc. reflexivity.
    - intros H pre name rest v Ht Hn Hh. apply H. apply S4 in Hh. destruct Hh as [Hh|(t' & Hi & (r & ->))].
      + exfalso. unfold has_at in Hh. destruct (at_ (pre ++ [SStatic v]) (new_node root)) eqn:E; [|congruence].
        apply new_at in E. destruct E as [E _]. destruct pre; discriminate.
      + exists pre, name, rest, v, r. rewrite <- app_assoc in Hi. auto. }
  rewrite (match_walk parts path n params Hp). split.
  - intros t p ps Hi HB HnB. apply (walk_found t parts ps HB n p params S1 (S2 _ _ Hi)). apply Hb. exact HnB.
  - pose proof (walk_inv parts n params S1) as H. destruct (walk n parts params); try exact H.
    destruct H as (t & ps & I1 & I2 & I3 & I4). destruct (in_dec tmpl_eq_dec t (map fst ts)) as [Hi|Hi].
    + left. apply in_map_iff in Hi. destruct Hi as ([t0 p0] & E & Hi). cbn in E. subst. exists t, ps.
      rewrite (S2 _ _ Hi) in I2. injection I2 as <-. split; [exact Hi|]. split; [exact I1|]. split; [apply Hb; exact I4|reflexivity].
    + right. rewrite (S3 _ Hi) in I2. unfold payload_at in I2. destruct (at_ t (new_node root)) as [m|] eqn:E; [|discriminate].
      apply new_at in E. destruct E as [-> ->]. cbn in I2. inversion I1; subst. auto.
Qed.
Lemma match_never_panics : forall ts root n path params, insert_all ts (new_node root) = Some n -> path <> [] ->
  match match_path n path params with MPanic | MStuck => False | _ => True end.
Proof.
  intros ts root n path params Hin Hne.
  assert (Hok : forall ts n0 n, tree_ok n0 -> insert_all ts n0 = Some n -> tree_ok n).
  { clear. induction ts as [|[t p] ts IH]; intros n0 n Hok H; cbn [insert_all] in H; [injection H as <-; exact Hok|].
    destruct (insert t p n0) as [n1|] eqn:E; [|discriminate]. apply (IH n1 n); [|exact H]. eapply insert_spec; eassumption. }
  assert (Hn : tree_ok n). { apply (Hok ts (new_node root)); [|exact Hin]. intros t m H; apply new_at in H; destruct H as [_ ->]; apply new_ok. }
  destruct path as [|c path]; [contradiction|]. unfold match_path. destruct (Byte.eqb c SLASH) eqn:E; [|exact I].
  destruct (path_parts path) as (parts & Hp). pose proof (match_walk parts _ n params Hp) as K. unfold match_path in K. rewrite beq_refl in K.
  rewrite K. pose proof (walk_inv parts n params Hn) as H. destruct (walk n parts params); try exact H; exact I.
Qed.
End Tree.
