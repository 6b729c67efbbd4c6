(* Storage refines the ordered multimap of S_KeyValue. *)
From Verif Require Import M_Base L_Base M_KeyValue S_KeyValue.

(* the calls of the API on the model, in the vocabulary of histories *)
Definition kv_call (s : storage) (o : kv_op) : storage * kv_out :=
  match o with
  | OAdd k v => (kv_add s k v, RNone)
  | OGet k => (s, RVal (kv_get s k))
  | OValueOr k d => (s, RVal (Some (kv_value_or s k d)))
  | OValues k => let '(s', r) := kv_values_of s k in
                 (s', RList (match r with Some l => l | None => [] end))
  | OKeys => let '(s', r) := kv_keys s in (s', RList r)
  | OHas k => (s, RBool (kv_has s k))
  | OLen => (s, RNum (kv_len s))
  | OClear => (kv_clear s, RNone)
  | OEntries => (s, REntries (kv_pairs s))
  end.
Fixpoint kv_calls (s : storage) (os : list kv_op) : storage * list kv_out :=
  match os with
  | [] => (s, [])
  | o :: os' => let '(s', r) := kv_call s o in
                let '(s'', rs) := kv_calls s' os' in (s'', r :: rs)
  end.

Lemma same_keyb_fold : forall a b, same_keyb a b = equal_fold a b.
Proof.
  intros a b. unfold same_keyb. destruct (list_eq_dec _ _ _) as [E|E].
  - symmetry. apply equal_fold_eq. exact E.
  - destruct (equal_fold a b) eqn:F; [|reflexivity]. exfalso. apply E. apply equal_fold_eq. exact F.
Qed.
Lemma same_key_fold : forall a b, same_key a b <-> equal_fold b a = true.
Proof. intros. unfold same_key. rewrite equal_fold_sym. symmetry. apply equal_fold_eq. Qed.

Lemma pairs_get_spec : forall l k,
  match pairs_get l k with Some v => first_value l k v | None => absent l k end.
Proof.
  induction l as [|[k1 v1] l IH]; intros k; cbn [pairs_get].
  - intros k1 v1 [].
  - destruct (equal_fold k k1) eqn:E.
    + exists [], k1, l. split; [reflexivity|]. split; [apply same_key_fold; exact E|]. intros ? ? [].
    + specialize (IH k). destruct (pairs_get l k) as [v|].
      * destruct IH as (l1 & k' & l2 & -> & Hk & Hn). exists ((k1, v1) :: l1), k', l2.
        split; [reflexivity|]. split; [exact Hk|]. intros ka va [H|H] Hs.
        -- injection H as <- <-. apply same_key_fold in Hs. congruence.
        -- exact (Hn ka va H Hs).
      * intros ka va [H|H] Hs.
        -- injection H as <- <-. apply same_key_fold in Hs. congruence.
        -- exact (IH ka va H Hs).
Qed.
Lemma pairs_values_spec : forall l k acc, pairs_values l k acc = acc ++ all_values l k.
Proof.
  induction l as [|[k1 v1] l IH]; intros k acc; cbn [pairs_values all_values].
  - rewrite app_nil_r. reflexivity.
  - rewrite IH. unfold all_values. cbn [filter fst]. rewrite same_keyb_fold.
    destruct (equal_fold k1 k); cbn [map snd]; [|reflexivity]. rewrite <- app_assoc. reflexivity.
Qed.
Lemma contains_spec : forall l k, kv_contains l k = existsb (fun e => equal_fold e k) l.
Proof. induction l as [|x l IH]; intros k; [reflexivity|]. simpl. rewrite IH. destruct (equal_fold x k); reflexivity. Qed.

Lemma new_keys_contains : forall before l acc,
  (forall k, kv_contains acc k = existsb (fun e => same_keyb (fst e) k) before) ->
  pairs_keys l acc = acc ++ new_keys before l.
Proof.
  intros before l. revert before. induction l as [|[k v] l IH]; intros before acc H; cbn [pairs_keys new_keys].
  - rewrite app_nil_r. reflexivity.
  - rewrite H. destruct (existsb _ before) eqn:E.
    + cbn [app]. apply IH. intros k'. rewrite H, existsb_app. cbn [existsb fst]. rewrite orb_false_r.
      destruct (same_keyb k k') eqn:F; [|rewrite orb_false_r; reflexivity].
      rewrite orb_true_r. apply existsb_exists in E. destruct E as ([ka va] & Hin & Hs).
      apply existsb_exists. exists (ka, va). split; [exact Hin|]. cbn [fst] in *.
      rewrite same_keyb_fold in *. apply equal_fold_trans with k; assumption.
    + rewrite IH with (before := before ++ [(k, v)]).
      * rewrite <- app_assoc. reflexivity.
      * intros k'. rewrite contains_spec, !existsb_app. rewrite <- contains_spec, H.
        cbn [existsb fst]. rewrite same_keyb_fold. reflexivity.
Qed.
Lemma pairs_keys_spec : forall l, pairs_keys l [] = distinct_keys l.
Proof. intros l. unfold distinct_keys. exact (new_keys_contains [] l [] (fun _ => eq_refl)). Qed.

Lemma pairs_has_spec : forall l k, pairs_has l k = true <-> exists k1 v1, In (k1, v1) l /\ same_key k1 k.
Proof.
  induction l as [|[k1 v1] l IH]; intros k; cbn [pairs_has].
  - split; [discriminate|]. intros (? & ? & [] & _).
  - destruct (equal_fold k k1) eqn:E.
    + split; [|reflexivity]. intros _. exists k1, v1. split; [left; reflexivity|]. apply same_key_fold. exact E.
    + rewrite IH. split.
      * intros (ka & va & Hin & Hs). exists ka, va. split; [right; exact Hin|exact Hs].
      * intros (ka & va & [H|H] & Hs); [|exists ka, va; tauto].
        injection H as <- <-. apply same_key_fold in Hs. congruence.
Qed.

Lemma kv_call_spec : forall s o, answers (kv_pairs s) o (snd (kv_call s o)) /\
  kv_pairs (fst (kv_call s o)) = entries_after (kv_pairs s) o.
Proof.
  intros s o. destruct o; cbn [kv_call snd fst answers entries_after].
  - split; reflexivity.
  - split; [|reflexivity]. exists (kv_get s k). split; [reflexivity|]. apply pairs_get_spec.
  - split; [|reflexivity]. unfold kv_value_or, kv_get. pose proof (pairs_get_spec (kv_pairs s) k) as H.
    eexists. split; [reflexivity|]. destruct (pairs_get (kv_pairs s) k); [left; exact H|right; split; [exact H|reflexivity]].
  - unfold kv_values_of. cbn [fst snd kv_pairs]. split; [|reflexivity].
    rewrite pairs_values_spec. cbn [app]. destruct (all_values (kv_pairs s) k); reflexivity.
  - unfold kv_keys. cbn [fst snd kv_pairs]. split; [|reflexivity]. rewrite pairs_keys_spec. reflexivity.
  - split; [|reflexivity]. exists (kv_has s k). split; [reflexivity|]. apply pairs_has_spec.
  - split; reflexivity.
  - split; reflexivity.
  - split; reflexivity.
Qed.
Lemma kv_calls_spec : forall os s, history (kv_pairs s) os (snd (kv_calls s os)).
Proof.
  induction os as [|o os IH]; intros s; cbn [kv_calls].
  - constructor.
  - destruct (kv_call s o) as [s' r] eqn:E. destruct (kv_calls s' os) as [s'' rs] eqn:E2. cbn [snd].
    pose proof (kv_call_spec s o) as (H1 & H2). rewrite E in H1, H2. cbn [fst snd] in H1, H2.
    constructor; [exact H1|]. rewrite <- H2. specialize (IH s'). rewrite E2 in IH. exact IH.
Qed.
Lemma distinct_keys_nodup_aux : forall l before,
  NoDup (map (map lower) (new_keys before l)) /\
  (forall k, In k (new_keys before l) -> forall k1 v1, In (k1, v1) before -> ~ same_key k1 k).
Proof.
  induction l as [|[k v] l IH]; intros before; cbn [new_keys].
  - split; [constructor|]. intros k [].
  - destruct (IH (before ++ [(k, v)])) as [IH1 IH2]. destruct (existsb (fun e => same_keyb (fst e) k) before) eqn:E; cbn [app map].
    + split; [exact IH1|]. intros k' Hk' k1 v1 Hin. apply (IH2 k' Hk' k1 v1). apply in_or_app. left. exact Hin.
    + split.
      * constructor; [|exact IH1]. intros Hin. apply in_map_iff in Hin. destruct Hin as (k' & Heq & Hin).
        apply (IH2 k' Hin k v); [apply in_or_app; right; left; reflexivity|]. unfold same_key. congruence.
      * intros k' [<-|Hk'] k1 v1 Hin Hs.
        -- assert (X : existsb (fun e => same_keyb (fst e) k) before = true).
           { apply existsb_exists. exists (k1, v1). split; [exact Hin|]. cbn [fst]. rewrite same_keyb_fold.
             apply equal_fold_eq. exact Hs. }
           congruence.
        -- apply (IH2 k' Hk' k1 v1); [apply in_or_app; left; exact Hin|exact Hs].
Qed.
Lemma distinct_keys_cover : forall l before k v, In (k, v) l ->
  (exists k1 v1, In (k1, v1) before /\ same_key k1 k) \/ exists k', In k' (new_keys before l) /\ same_key k' k.
Proof.
  induction l as [|[k0 v0] l IH]; intros before k v Hin; [destruct Hin|]. cbn [new_keys].
  destruct Hin as [H|H].
  - injection H as -> ->. destruct (existsb (fun e => same_keyb (fst e) k) before) eqn:E.
    + left. apply existsb_exists in E. destruct E as ([k1 v1] & Hi & Hs). cbn [fst] in Hs.
      exists k1, v1. split; [exact Hi|]. rewrite same_keyb_fold in Hs. apply equal_fold_eq in Hs. exact Hs.
    + right. exists k. split; [left; reflexivity|reflexivity].
  - destruct (IH (before ++ [(k0, v0)]) k v H) as [(k1 & v1 & Hi & Hs)|(k' & Hi & Hs)].
    + apply in_app_or in Hi. destruct Hi as [Hi|[Hi|[]]]; [left; exists k1, v1; tauto|].
      injection Hi as -> ->. destruct (existsb (fun e => same_keyb (fst e) k1) before) eqn:E.
      * left. apply existsb_exists in E. destruct E as ([k2 v2] & Hi2 & Hs2). cbn [fst] in Hs2.
        exists k2, v2. split; [exact Hi2|]. rewrite same_keyb_fold in Hs2. apply equal_fold_eq in Hs2.
        unfold same_key in *. congruence.
      * right. exists k1. split; [left; reflexivity|exact Hs].
    + right. exists k'. split; [apply in_or_app; right; exact Hi|exact Hs].
Qed.
Lemma distinct_keys_ok : forall l, NoDup (map (map lower) (distinct_keys l)) /\
  forall k, (exists v, In (k, v) l) -> exists k', In k' (distinct_keys l) /\ same_key k' k.
Proof.
  intros l. split; [apply distinct_keys_nodup_aux|]. intros k (v & Hin).
  destruct (distinct_keys_cover l [] k v Hin) as [(? & ? & [] & _)|H]. exact H.
Qed.
Lemma clone_same : forall s os, kv_calls (kv_clone s) os = kv_calls s os.
Proof. intros [p u v] os. reflexivity. Qed.
