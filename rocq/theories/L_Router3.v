(* From the calls to the running router. *)
From Coq Require Import Permutation Sorted.
From Verif Require Import M_Base M_Status M_Method M_KeyValue M_Request M_Response M_Suit M_Path M_Radix M_Router S_Routes S_Router
  L_Base L_Path L_Radix L_Router L_Router2.

Section Router.
Variable W : Type.
Notation handler := (handler W). Notation middleware := (middleware W). Notation rop := (rop W).
Notation catcher := (catcher W). Notation mtable := (mtable W). Notation router := (router W).
Notation ops := (list (list nat * rop)).
Notation sub := (sub W). Notation wrap := (wrap W). Notation flat := (flat W). Notation Inv := (Inv W).

(* ---- sorting calls by the group they are made on ---- *)
Definition ext (pre : list nat) (x : list nat * rop) : bool := addr_eqb (firstn (List.length pre) (fst x)) pre.
Lemma ext_spec : forall pre x, ext pre x = true <-> exists s, fst x = pre ++ s.
Proof.
  intros pre x. unfold ext. rewrite addr_eqb_eq. split.
  - intros H. exists (skipn (List.length pre) (fst x)). rewrite <- (firstn_skipn (List.length pre) (fst x)) at 1. rewrite H. reflexivity.
  - intros (s & ->). rewrite firstn_app, Nat.sub_diag, firstn_all. apply app_nil_r.
Qed.
Lemma seq_bump : forall A (F : nat -> list A) x k n s, (s <= k < s + n)%nat ->
  Permutation (flat_map (fun i => if Nat.eqb i k then x :: F i else F i) (seq s n)) (x :: flat_map F (seq s n)).
Proof.
  intros A F x k. induction n as [|n IH]; intros s H; [lia|]. cbn [seq flat_map]. destruct (Nat.eqb s k) eqn:E.
  - apply Nat.eqb_eq in E. subst. cbn [app]. apply perm_skip. apply Permutation_app_head.
    replace (flat_map (fun i => if Nat.eqb i k then x :: F i else F i) (seq (S k) n)) with (flat_map F (seq (S k) n)); [apply Permutation_refl|].
    assert (K : forall m s, (k < s)%nat -> flat_map F (seq s m) = flat_map (fun i => if Nat.eqb i k then x :: F i else F i) (seq s m)).
    { induction m as [|m IHm]; intros s0 Hs; [reflexivity|]. cbn [seq flat_map]. replace (Nat.eqb s0 k) with false by (symmetry; apply Nat.eqb_neq; lia).
      rewrite IHm by lia. reflexivity. }
    apply K. lia.
  - apply Nat.eqb_neq in E. eapply Permutation_trans; [apply Permutation_app_head; apply IH; lia|]. symmetry. apply (Permutation_middle (F s)).
Qed.
Lemma flat_map_ext_in' : forall A B (f g : A -> list B) l, (forall a, In a l -> f a = g a) -> flat_map f l = flat_map g l.
Proof. intros A B f g l. induction l as [|a l IH]; intros H; [reflexivity|]. cbn [flat_map]. rewrite (H a) by (left; reflexivity). rewrite IH by (intros; apply H; right; assumption). reflexivity. Qed.
Lemma perm_ext : forall A B (f g : A -> list B) l, (forall a, In a l -> f a = g a) -> Permutation (flat_map f l) (flat_map g l).
Proof. intros A B f g l H. rewrite (flat_map_ext_in' _ _ f g l H). apply Permutation_refl. Qed.
Lemma ext_split : forall (os : ops) pre n, (forall x, In x os -> forall i s, fst x = pre ++ i :: s -> (i < n)%nat) ->
  Permutation (filter (ext pre) os) (filter (fun x => addr_eqb (fst x) pre) os ++ flat_map (fun i => filter (ext (pre ++ [i])) os) (seq 0 n)).
Proof.
  induction os as [|x os IH]; intros pre n H; cbn [filter].
  - cbn [app]. replace (flat_map (fun _ : nat => @nil (list nat * rop)) (seq 0 n)) with (@nil (list nat * rop)); [constructor|].
    generalize (seq 0 n) as l. induction l; [reflexivity|assumption].
  - specialize (IH pre n (fun y Hy => H y (or_intror Hy))). destruct (ext pre x) eqn:E.
    + apply ext_spec in E. destruct E as (s & E). destruct s as [|k s].
      * rewrite app_nil_r in E. rewrite E, addr_eqb_refl. cbn [app]. apply perm_skip.
        eapply Permutation_trans; [exact IH|]. apply Permutation_app_head. apply perm_ext.
        intros i _. assert (E0 : ext (pre ++ [i]) x = false); [|rewrite E0; reflexivity]. destruct (ext (pre ++ [i]) x) eqn:E2; [|reflexivity].
        apply ext_spec in E2. destruct E2 as (s & E2). rewrite E, <- app_assoc in E2. rewrite <- (app_nil_r pre) in E2 at 1. apply app_inv_head in E2. discriminate.
      * replace (addr_eqb (fst x) pre) with false; [|symmetry; apply addr_eqb_neq; rewrite E; intros E2; rewrite <- (app_nil_r pre) in E2 at 2; apply app_inv_head in E2; discriminate].
        eapply Permutation_trans; [apply perm_skip; exact IH|].
        eapply Permutation_trans; [apply Permutation_middle|]. apply Permutation_app_head.
        rewrite (flat_map_ext_in' _ _ (fun i => if ext (pre ++ [i]) x then x :: filter (ext (pre ++ [i])) os else filter (ext (pre ++ [i])) os)
           (fun i => if Nat.eqb i k then x :: filter (ext (pre ++ [i])) os else filter (ext (pre ++ [i])) os)).
        -- symmetry. apply (seq_bump _ (fun i => filter (ext (pre ++ [i])) os)). pose proof (H x (or_introl eq_refl) k s E). lia.
        -- intros i _. assert (E3 : ext (pre ++ [i]) x = Nat.eqb i k); [|rewrite E3; reflexivity].
           destruct (Nat.eqb i k) eqn:E2.
           ++ apply Nat.eqb_eq in E2. subst. apply ext_spec. exists s. rewrite E, <- app_assoc. reflexivity.
           ++ apply Nat.eqb_neq in E2. destruct (ext (pre ++ [i]) x) eqn:E4; [|reflexivity]. apply ext_spec in E4. destruct E4 as (s' & E4).
              rewrite E, <- app_assoc in E4. apply app_inv_head in E4. injection E4 as E4 _. congruence.
    + replace (addr_eqb (fst x) pre) with false.
      * eapply Permutation_trans; [exact IH|]. apply Permutation_app_head. apply perm_ext.
        intros i _. assert (E0 : ext (pre ++ [i]) x = false); [|rewrite E0; reflexivity]. destruct (ext (pre ++ [i]) x) eqn:E2; [|reflexivity].
        apply ext_spec in E2. destruct E2 as (s & E2). rewrite <- app_assoc in E2. assert (ext pre x = true) by (apply ext_spec; exists ([i] ++ s); exact E2). congruence.
      * symmetry. apply addr_eqb_neq. intros E2. assert (ext pre x = true) by (apply ext_spec; exists []; rewrite app_nil_r; exact E2). congruence.
Qed.

Lemma wrap_wrap : forall K ms ms' (l : list (K * handler)), wrap ms (wrap ms' l) = wrap (ms ++ ms') l.
Proof.
  intros K ms ms' l. unfold L_Router.wrap. rewrite map_map. apply map_ext. intros [k h]. cbn. unfold compose. rewrite fold_right_app. reflexivity.
Qed.
Lemma perm_flat_map : forall A B (f : A -> list B) l l', Permutation l l' -> Permutation (flat_map f l) (flat_map f l').
Proof.
  intros A B f l l' H. induction H; cbn [flat_map].
  - constructor.
  - apply Permutation_app_head. exact IHPermutation.
  - rewrite !app_assoc. apply Permutation_app_tail. apply Permutation_app_comm.
  - eapply Permutation_trans; eassumption.
Qed.
Lemma wrap_flat_map : forall K A ms (f : A -> list (K * handler)) l, wrap ms (flat_map f l) = flat_map (fun a => wrap ms (f a)) l.
Proof. intros K A ms f l. induction l as [|a l IH]; [reflexivity|]. cbn [flat_map]. rewrite (wrap_app W), IH. reflexivity. Qed.

Section Items.
Variable K : Type.
Variable F : router -> list (K * handler).
Variable fi : list nat * rop -> list (K * handler).
Variable os : ops.
Variable g : router.
Hypothesis HI : Inv os g.
Hypothesis HF : forall addr c, sub g addr = Some c -> Permutation (F c) (flat_map fi (filter (fun x => addr_eqb (fst x) addr) os)).

Definition placed (pre : list nat) (x : list nat * rop) : list (K * handler) :=
  wrap (chain_below os pre (skipn (List.length pre) (fst x))) (fi x).
Lemma collect_items : forall c pre, sub g pre = Some c -> Permutation (collect W F c) (flat_map (placed pre) (filter (ext pre) os)).
Proof.
  induction c as [c IH] using (router_ind2 W). intros pre Hs. rewrite collect_eq.
  destruct HI as [HI1 HI2]. destruct (HI1 pre c Hs) as (_ & O2 & _).
  set (n := List.length (g_children c)).
  assert (Hn : forall x, In x os -> forall i s, fst x = pre ++ i :: s -> (i < n)%nat).
  { intros x Hx i s E. specialize (HI2 x Hx). rewrite E, sub_app, Hs in HI2. cbn [L_Router.sub] in HI2.
    destruct (nth_error (g_children c) i) eqn:En; [|contradiction]. apply nth_error_Some. congruence. }
  pose proof (perm_flat_map _ _ (placed pre) _ _ (ext_split os pre n Hn)) as HP.
  eapply Permutation_trans; [|apply Permutation_sym; exact HP]. clear HP. rewrite flat_map_app, (wrap_app W). apply Permutation_app.
  - eapply Permutation_trans; [apply wrap_perm; apply (HF pre c Hs)|]. rewrite wrap_flat_map.
    rewrite (flat_map_ext_in' _ _ (placed pre) (fun a => wrap (g_mws c) (fi a))); [apply Permutation_refl|].
    intros x Hx. apply filter_In in Hx. destruct Hx as [_ Hx]. apply addr_eqb_eq in Hx. unfold placed.
    rewrite Hx, skipn_all. cbn [chain_below]. rewrite O2, app_nil_r. reflexivity.
  - assert (K1 : forall ch s, (forall i d, nth_error ch i = Some d -> In d (g_children c) /\ sub g (pre ++ [s + i]%nat) = Some d) ->
       Permutation (wrap (g_mws c) (flat_map (collect W F) ch))
         (flat_map (placed pre) (flat_map (fun i => filter (ext (pre ++ [i])) os) (seq s (List.length ch))))).
    { induction ch as [|d ch IHch]; intros s Hd; [constructor|]. cbn [flat_map List.length seq]. rewrite (wrap_app W), flat_map_app.
      apply Permutation_app.
      - destruct (Hd 0%nat d eq_refl) as [D1 D2]. rewrite Nat.add_0_r in D2.
        eapply Permutation_trans; [apply wrap_perm; apply (IH d D1 (pre ++ [s]) D2)|]. rewrite wrap_flat_map.
        rewrite (flat_map_ext_in' _ _ (placed pre) (fun a => wrap (g_mws c) (placed (pre ++ [s]) a))); [apply Permutation_refl|].
        intros x Hx. apply filter_In in Hx. destruct Hx as [_ Hx]. apply ext_spec in Hx. destruct Hx as (r & E). unfold placed.
        rewrite wrap_wrap. f_equal. rewrite E. rewrite O2.
        replace (skipn (List.length pre) ((pre ++ [s]) ++ r)) with (s :: r) by (rewrite <- app_assoc, skipn_app, skipn_all, Nat.sub_diag; reflexivity).
        replace (skipn (List.length (pre ++ [s])) ((pre ++ [s]) ++ r)) with r by (rewrite skipn_app, skipn_all, Nat.sub_diag; reflexivity).
        reflexivity.
      - apply IHch. intros i d' Hd'. destruct (Hd (S i) d' Hd') as [D1 D2]. split; [exact D1|]. rewrite <- D2. f_equal. f_equal. f_equal. lia. }
    apply (K1 (g_children c) 0%nat). intros i d Hd. split; [eapply nth_error_In; exact Hd|]. rewrite sub_snoc, Hs. exact Hd.
Qed.
Lemma collect_all : Permutation (collect W F g) (flat_map (placed []) os).
Proof.
  pose proof (collect_items g [] eq_refl) as H. replace (filter (ext []) os) with os in H; [exact H|].
  clear. induction os as [|x l IH]; [reflexivity|]. cbn [filter]. replace (ext [] x) with true by (symmetry; apply ext_spec; exists (fst x); reflexivity).
  rewrite <- IH. reflexivity.
Qed.
End Items.

Lemma flat_map_map : forall A B C (f : B -> list C) (g : A -> B) l, flat_map f (map g l) = flat_map (fun a => f (g a)) l.
Proof. intros A B C f g l. induction l as [|a l IH]; [reflexivity|]. cbn [map flat_map]. rewrite IH. reflexivity. Qed.
Lemma collect_routes : forall os g, Inv os g -> Permutation (collect W (routes_in W) g) (registered os).
Proof.
  intros os g HI. eapply Permutation_trans.
  - apply (collect_all _ (routes_in W) (fun x => route_items W (full_prefix os (fst x)) (snd x)) os g HI).
    intros addr c Hs. destruct HI as [HI1 _]. destruct (HI1 addr c Hs) as (_ & _ & _ & _ & _ & _ & O7 & _). unfold routes_in.
    eapply Permutation_trans; [exact O7|]. unfold calls. rewrite flat_map_map.
    rewrite (flat_map_ext_in' _ _ (fun a => route_items W (full_prefix os addr) (snd a)) (fun x => route_items W (full_prefix os (fst x)) (snd x))); [apply Permutation_refl|].
    intros x Hx. apply filter_In in Hx. destruct Hx as [_ Hx]. apply addr_eqb_eq in Hx. rewrite Hx. reflexivity.
  - unfold registered. rewrite (flat_map_ext_in' _ _ (placed _ _ os []) (fun x => match snd x with
      | Route m p h ms => [(normalize (full_prefix os (fst x) ++ p), m, behind (chain os (fst x) ++ ms) h)] | _ => [] end)); [apply Permutation_refl|].
    intros [ad o] _. unfold placed. cbn [List.length skipn fst snd]. destruct o; try reflexivity.
    cbn [route_items L_Router.wrap map fst snd]. unfold behind, compose, chain. rewrite fold_right_app. reflexivity.
Qed.
Lemma collect_catchers : forall os g, Inv os g -> Permutation (collect W (@g_catchers W) g) (caught os).
Proof.
  intros os g HI. eapply Permutation_trans.
  - apply (collect_all _ (@g_catchers W) (fun x => catch_items W (full_prefix os (fst x)) (snd x)) os g HI).
    intros addr c Hs. destruct HI as [HI1 _]. destruct (HI1 addr c Hs) as (_ & _ & _ & O4 & _).
    rewrite O4. unfold calls. rewrite flat_map_map.
    rewrite (flat_map_ext_in' _ _ (fun a => catch_items W (full_prefix os addr) (snd a)) (fun x => catch_items W (full_prefix os (fst x)) (snd x))); [apply Permutation_refl|].
    intros x Hx. apply filter_In in Hx. destruct Hx as [_ Hx]. apply addr_eqb_eq in Hx. rewrite Hx. reflexivity.
  - unfold caught. rewrite (flat_map_ext_in' _ _ (placed _ _ os []) (fun x => match snd x with
      | Catch p h ms => [(path_join (full_prefix os (fst x)) p, behind (chain os (fst x) ++ ms) h)] | _ => [] end)); [apply Permutation_refl|].
    intros [ad o] _. unfold placed. cbn [List.length skipn fst snd]. destruct o; try reflexivity.
    cbn [catch_items L_Router.wrap map fst snd]. unfold behind, compose, chain. rewrite fold_right_app. reflexivity.
Qed.
(* every route anywhere has a template *)
Lemma collect_forall : forall K (F : router -> list (K * handler)) (Q : K -> Prop) g,
  (forall addr c, sub g addr = Some c -> Forall (fun e => Q (fst e)) (F c)) -> Forall (fun e => Q (fst e)) (collect W F g).
Proof.
  intros K F Q. induction g as [g IH] using (router_ind2 W). intros H. rewrite collect_eq.
  assert (HW : forall ms (l : list (K * handler)), Forall (fun e => Q (fst e)) l -> Forall (fun e => Q (fst e)) (wrap ms l)).
  { intros ms l Hl. unfold L_Router.wrap. apply Forall_map. exact Hl. }
  apply HW. apply Forall_app. split; [apply (H [] g eq_refl)|]. apply Forall_forall. intros x Hx. apply in_flat_map in Hx.
  destruct Hx as (c & Hc & Hx). pose proof (IH c Hc) as HC. rewrite Forall_forall in HC. apply HC; [|exact Hx].
  intros addr d Hd. apply In_nth_error in Hc. destruct Hc as (i & Hi). apply (H (i :: addr)). cbn [L_Router.sub]. rewrite Hi. exact Hd.
Qed.
Lemma collect_in : forall K (F : router -> list (K * handler)) g k, In k (map fst (collect W F g)) <->
  exists addr c, sub g addr = Some c /\ In k (map fst (F c)).
Proof.
  intros K F. induction g as [g IH] using (router_ind2 W). intros k. rewrite collect_eq, wrap_keys, map_app, in_app_iff. split.
  - intros [H|H].
    + exists [], g. auto.
    + apply in_map_iff in H. destruct H as (e & E & H). apply in_flat_map in H. destruct H as (c & Hc & H).
      assert (Hk : In k (map fst (collect W F c))) by (rewrite <- E; apply in_map; exact H).
      apply (IH c Hc) in Hk. destruct Hk as (addr & d & D1 & D2). apply In_nth_error in Hc. destruct Hc as (i & Hi).
      exists (i :: addr), d. cbn [L_Router.sub]. rewrite Hi. auto.
  - intros (addr & d & D1 & D2). destruct addr as [|i addr]; [injection D1 as <-; left; exact D2|]. right.
    cbn [L_Router.sub] in D1. destruct (nth_error (g_children g) i) as [c|] eqn:Ei; [|discriminate]. apply nth_error_In in Ei.
    assert (Hk : In k (map fst (collect W F c))) by (apply (IH c Ei); exists addr, d; auto).
    apply in_map_iff in Hk. destruct Hk as (e & E & Hk). apply in_map_iff. exists e. split; [exact E|]. apply in_flat_map. exists c. auto.
Qed.
Lemma dyn_spec : forall g, dyn W g = true <-> exists addr c, sub g addr = Some c /\ rg_dynamic (g_reg c) = true.
Proof.
  induction g as [g IH] using (router_ind2 W). destruct g as [p mu ca mw re ch]. cbn [dyn g_children] in *. rewrite orb_true_iff, existsb_exists. split.
  - intros [H|(c & Hc & H)].
    + exists [], (Router p mu ca mw re ch). auto.
    + apply (IH c Hc) in H. destruct H as (addr & d & D1 & D2). apply In_nth_error in Hc. destruct Hc as (i & Hi).
      exists (i :: addr), d. cbn [L_Router.sub g_children]. rewrite Hi. auto.
  - intros (addr & d & D1 & D2). destruct addr as [|i addr]; [injection D1 as <-; left; exact D2|]. right.
    cbn [L_Router.sub g_children] in D1. destruct (nth_error ch i) as [c|] eqn:Ei; [|discriminate]. apply nth_error_In in Ei.
    exists c. split; [exact Ei|]. apply (IH c Ei). exists addr, d. auto.
Qed.

(* ---- what prepare gives ---- *)
Lemma inv_wf : forall os g, Inv os g -> all_wf W g.
Proof. intros os g [H _] addr c Hs. destruct (H addr c Hs) as (_ & _ & _ & _ & _ & O6 & _). exact O6. Qed.
Theorem prepared : forall (os : ops) a, build os new_app = Some a ->
  match prepare (a_root a) with
  | Some g => wf W (rg_routes (g_reg g)) /\ Permutation (flat (rg_routes (g_reg g))) (registered os) /\ NoDup (map fst (registered os)) /\
      Permutation (g_catchers g) (caught os) /\ g_mutators g = mutators_of W (a_root a) /\
      (forall e, In e (registered os) -> exists t, tparse (fst (fst e)) = inr t) /\
      (rg_dynamic (g_reg g) = true <-> HasParams os)
  | None => ~ NoDup (map fst (registered os))
  end.
Proof.
  intros os a H. pose proof (build_inv W os a H) as HI. pose proof (prepare_spec W (a_root a) (inv_wf _ _ HI)) as HP.
  pose proof (collect_routes os (a_root a) HI) as HC. destruct (prepare (a_root a)) as [g|].
  - destruct HP as (P1 & P2 & P3 & P4 & P5). split; [exact P1|].
    assert (HR : Permutation (flat (rg_routes (g_reg g))) (registered os)) by (eapply Permutation_trans; [exact P2|exact HC]).
    split; [exact HR|]. split; [|split; [|split; [exact P4|split]]].
    + destruct P1 as (_ & _ & N). eapply Permutation_NoDup; [apply Permutation_map; exact HR|exact N].
    + rewrite P3. apply collect_catchers. exact HI.
    + assert (HQ : Forall (fun e => (fun k => exists t, tparse (fst k) = inr t) (fst e)) (collect W (routes_in W) (a_root a))).
      { apply (collect_forall _ (routes_in W) (fun k : bytes * method => exists t, tparse (fst k) = inr t)). intros addr c Hs. destruct HI as [HI _]. destruct (HI addr c Hs) as (_ & _ & _ & _ & _ & _ & _ & O8 & _). exact O8. }
      intros e He. rewrite Forall_forall in HQ. apply (HQ e). eapply Permutation_in; [apply Permutation_sym; exact HC|exact He].
    + rewrite P5, dyn_spec. unfold HasParams. split.
      * intros (addr & c & Hs & Hd). destruct HI as [HI _]. destruct (HI addr c Hs) as (_ & _ & _ & _ & _ & _ & _ & _ & O9). apply O9 in Hd.
        destruct Hd as ([[p m] h] & t & n & E1 & E2 & E3). cbn [fst] in E2.
        assert (Hk : In (p, m) (map fst (collect W (routes_in W) (a_root a)))).
        { apply collect_in. exists addr, c. split; [exact Hs|]. apply (in_map fst) in E1. exact E1. }
        apply (Permutation_in _ (Permutation_map fst HC)) in Hk. apply in_map_iff in Hk. destruct Hk as ([[p' m'] h'] & E & Hk). cbn in E. injection E as -> ->.
        exists p, m, h', t, n. auto.
      * intros (p & m & h & t & n & E1 & E2 & E3). apply (Permutation_in _ (Permutation_sym HC)) in E1. apply (in_map fst) in E1. cbn [fst] in E1.
        apply collect_in in E1. destruct E1 as (addr & c & Hs & Hk). exists addr, c. split; [exact Hs|]. destruct HI as [HI _].
        destruct (HI addr c Hs) as (_ & _ & _ & _ & _ & _ & _ & _ & O9). apply O9. apply in_map_iff in Hk. destruct Hk as ([[p' m'] h'] & E & Hk).
        cbn in E. injection E as -> ->. exists (p, m, h'), t, n. auto.
  - intros HN. apply HP. eapply Permutation_NoDup; [apply Permutation_map; apply Permutation_sym; exact HC|exact HN].
Qed.
End Router.
