(* Lemmas: a tree of templates, some of which may be the same. *)
From Coq Require Import List.
From Verif Require Import M_Base M_KeyValue M_Path M_Radix S_Routes L_Base L_Path L_Radix.
Import ListNotations.

Section Tree.
Variable P : Type.
Notation node := (node P).

Lemma insert_all_any : forall ts (n n' : node), tree_ok P n -> insert_all P ts n = Some n' ->
  tree_ok P n' /\
  (forall t, In t (map fst ts) -> exists p, In (t, p) ts /\ payload_at P n' t = Some p) /\
  (forall t, ~ In t (map fst ts) -> payload_at P n' t = payload_at P n t) /\
  (forall u, has_at P n' u <-> has_at P n u \/ exists t, In t (map fst ts) /\ prefix_of u t).
Proof.
  induction ts as [|[t p] ts IH]; intros n n' Hok H; cbn [insert_all map fst In] in *.
  - injection H as <-. split; [exact Hok|]. split; [intros ? []|]. split; [reflexivity|].
    intros u. split; [auto|]. intros [H|(t & [] & _)]. exact H.
  - destruct (insert t p n) as [n1|] eqn:E; [|discriminate].
    destruct (insert_spec _ _ _ _ _ Hok E) as (I1 & I2 & I3). destruct (IH n1 n' I1 H) as (J1 & J2 & J3 & J4).
    split; [exact J1|]. split; [|split].
    + intros t0 Hi. destruct (in_dec tmpl_eq_dec t0 (map fst ts)) as [K|K].
      * destruct (J2 t0 K) as (p0 & K1 & K2). exists p0. auto.
      * destruct Hi as [<-|Hi]; [|contradiction]. exists p. split; [left; reflexivity|]. rewrite (J3 _ K), I2. destruct (tmpl_eq_dec t t); [reflexivity|congruence].
    + intros t0 Hi. rewrite J3 by (intros H1; apply Hi; right; exact H1). rewrite I2. destruct (tmpl_eq_dec t0 t); [|reflexivity]. exfalso. apply Hi. left. congruence.
    + intros u. rewrite J4, I3. split.
      * intros [[H1|H1]|(t0 & H1 & H2)]; [auto| |]; right; eexists; split; [left; reflexivity|exact H1|right; exact H1|exact H2].
      * intros [H1|(t0 & [<-|H1] & H2)]; [auto|auto|]. right. exists t0. auto.
Qed.
Theorem tree_match_any : forall ts root (n : node) parts path params, insert_all P ts (new_node root) = Some n -> PathOf parts path ->
  (forall t ps, In t (map fst ts) -> Binds t parts ps -> ~ Beaten (map fst ts) t parts ->
     exists p, In (t, p) ts /\ match_path n path params = MFound p (add_params params ps)) /\
  match match_path n path params with
  | MFound p params' =>
      (exists t ps, In (t, p) ts /\ Binds t parts ps /\ ~ Beaten (map fst ts) t parts /\ params' = add_params params ps) \/
      (root = Some p /\ parts = [] /\ ~ In [] (map fst ts) /\ params' = params)
  | MNone _ => True
  | _ => False
  end.
Proof.
  intros ts root n parts path params Hin Hp.
  assert (Hok0 : tree_ok P (new_node root)) by (intros t m H; apply new_at in H; destruct H as [_ ->]; apply new_ok).
  destruct (insert_all_any _ _ _ Hok0 Hin) as (S1 & S2 & S3 & S4).
  assert (Hb : forall t, (forall pre name rest v, t = pre ++ SWild name :: rest -> nth_error parts (List.length pre) = Some v -> ~ has_at P n (pre ++ [SStatic v])) <->
                ~ Beaten (map fst ts) t parts).
  { intros t. split.
    - intros H (pre & name & rest & v & rest' & -> & B2 & B3). apply (H pre name rest v eq_refl B3). apply S4. right.
      exists (pre ++ SStatic v :: rest'). split; [exact B2|]. exists rest'. rewrite <- app_assoc. reflexivity.
    - intros H pre name rest v Ht Hn Hh. apply H. apply S4 in Hh. destruct Hh as [Hh|(t' & Hi & (r & ->))].
      + exfalso. unfold has_at in Hh. destruct (at_ P (pre ++ [SStatic v]) (new_node root)) eqn:E; [|congruence].
        apply new_at in E. destruct E as [E _]. destruct pre; discriminate.
      + exists pre, name, rest, v, r. rewrite <- app_assoc in Hi. auto. }
  rewrite (match_walk P parts path n params Hp). split.
  - intros t ps Hi HB HnB. destruct (S2 _ Hi) as (p & K1 & K2). exists p. split; [exact K1|]. apply (walk_found P t parts ps HB n p params S1 K2). apply Hb. exact HnB.
  - pose proof (walk_inv P parts n params S1) as H. destruct (walk P n parts params); try exact H.
    destruct H as (t & ps & I1 & I2 & I3 & I4). destruct (in_dec tmpl_eq_dec t (map fst ts)) as [Hi|Hi].
    + left. destruct (S2 _ Hi) as (p0 & K1 & K2). exists t, ps.
      rewrite K2 in I2. injection I2 as <-. split; [exact K1|]. split; [exact I1|]. split; [apply Hb; exact I4|assumption].
    + right. rewrite (S3 _ Hi) in I2. unfold payload_at in I2. destruct (at_ P t (new_node root)) as [m|] eqn:E; [|discriminate].
      apply new_at in E. destruct E as [-> ->]. cbn in I2. inversion I1; subst. auto.
Qed.
End Tree.
