(* Initialize called again on a router that has been initialized. *)
From Coq Require Import Permutation Sorted.
From Verif Require Import M_Base M_Status M_Method M_KeyValue M_Request M_Response M_Suit M_Path M_Radix M_Router S_Routes S_Router
  L_Base L_Path L_Router L_Router2 L_Router3.

Section Again.
Variable W : Type.
Notation handler := (handler W). Notation middleware := (middleware W). Notation rop := (rop W).
Notation catcher := (catcher W). Notation mtable := (mtable W). Notation router := (router W).
Notation ops := (list (list nat * rop)).

Lemma prepare_shape : forall g g' : router, prepare g = Some g' ->
  g_mws g' = g_mws g /\ Forall2 (fun c c' => prepare c = Some c') (g_children g) (g_children g').
Proof.
  intros [p mu ca mw re ch] g' H. cbn [prepare] in H.
  match type of H with context [fold_left ?s _ _] => set (step := s) in H end.
  assert (HN : forall l, fold_left step l None = None) by (induction l as [|x l IHl]; [reflexivity|cbn [fold_left]; exact IHl]).
  assert (K : forall ch re mu ca dn re' mu' ca' dn', fold_left step (map prepare ch) (Some (re, mu, ca, dn)) = Some (re', mu', ca', dn') ->
     exists more, dn' = dn ++ more /\ Forall2 (fun c c' => prepare c = Some c') ch more).
  { clear H. induction ch0 as [|c ch0 IH]; intros re0 mu0 ca0 dn re' mu' ca' dn' H; cbn [map fold_left] in H.
    - injection H as <- <- <- <-. exists []. rewrite app_nil_r. split; [reflexivity|constructor].
    - destruct (prepare c) as [c'|] eqn:Ec; [|cbn [step] in H; rewrite HN in H; discriminate].
      unfold step at 2 in H. destruct (reg_merge re0 (g_reg c')) as [re1|]; [|rewrite HN in H; discriminate].
      destruct (IH _ _ _ _ _ _ _ _ H) as (more & -> & F). exists (c' :: more). rewrite <- app_assoc. split; [reflexivity|]. constructor; assumption. }
  destruct (fold_left step (map prepare ch) (Some (re, mu, ca, []))) as [[[[re' mu'] ca'] dn']|] eqn:E; [|discriminate].
  destruct (K _ _ _ _ _ _ _ _ _ E) as (more & -> & F). injection H as <-. split; [reflexivity|exact F].
Qed.
Lemma forall2_nth : forall A B (R : A -> B -> Prop) l l', Forall2 R l l' -> forall i y, nth_error l' i = Some y -> exists x, nth_error l i = Some x /\ R x y.
Proof.
  intros A B R l l' H. induction H as [|x y l l' Hx H IH]; intros [|i] z Hz; cbn in *; try discriminate.
  - injection Hz as <-. exists x. auto.
  - apply IH. exact Hz.
Qed.
Lemma forall2_nth' : forall A B (R : A -> B -> Prop) l l', Forall2 R l l' -> forall i x, nth_error l i = Some x -> exists y, nth_error l' i = Some y /\ R x y.
Proof.
  intros A B R l l' H. induction H as [|x y l l' Hx H IH]; intros [|i] z Hz; cbn in *; try discriminate.
  - injection Hz as <-. exists y. auto.
  - apply IH. exact Hz.
Qed.
Lemma prepare_wf : forall addr g g' c, all_wf W g -> prepare g = Some g' -> sub W g' addr = Some c -> wf W (rg_routes (g_reg c)).
Proof.
  induction addr as [|i addr IH]; intros g g' c Hw Hp Hs; cbn [sub] in Hs.
  - injection Hs as <-. pose proof (prepare_spec W g Hw) as P. rewrite Hp in P. apply P.
  - destruct (nth_error (g_children g') i) as [c1'|] eqn:Ei; [|discriminate].
    destruct (prepare_shape g g' Hp) as [_ F]. destruct (forall2_nth _ _ _ _ _ F _ _ Ei) as (c1 & E1 & P1).
    apply (IH c1 c1' c); [|exact P1|exact Hs]. eapply all_wf_child; [exact Hw|]. eapply nth_error_In. exact E1.
Qed.
Lemma prepare_all_wf : forall g g', all_wf W g -> prepare g = Some g' -> all_wf W g'.
Proof. intros g g' Hw Hp addr c Hs. eapply prepare_wf; [exact Hw|exact Hp|exact Hs]. Qed.

(* a prepared group knows at least what the group below knew *)
Lemma below_nil : forall g g', all_wf W g -> prepare g = Some g' -> collect W (routes_in W) g = [] -> collect W (routes_in W) g' = [].
Proof.
  induction g as [g IH] using (router_ind2 W). intros g' Hw Hp H0.
  pose proof (prepare_spec W g Hw) as P. rewrite Hp in P. destruct P as (_ & P & _). rewrite H0 in P. apply Permutation_sym, Permutation_nil in P.
  destruct (prepare_shape g g' Hp) as [_ F]. rewrite collect_eq, P.
  assert (Hz : flat_map (collect W (routes_in W)) (g_children g') = []).
  { rewrite collect_eq in H0. apply map_eq_nil in H0. apply app_eq_nil in H0. destruct H0 as [_ H0].
    assert (Hch : forall c, In c (g_children g) -> all_wf W c) by (intros c Hc; eapply all_wf_child; [exact Hw|exact Hc]).
    clear Hp P Hw. induction F as [|c c' l l' Hc F IHF]; [reflexivity|]. cbn [flat_map] in *. apply app_eq_nil in H0. destruct H0 as [A B].
    rewrite (IH c (or_introl eq_refl) c' (Hch c (or_introl eq_refl)) Hc A). cbn [app].
    apply IHF; [intros x Hx; apply IH; right; exact Hx|exact B|intros x Hx; apply Hch; right; exact Hx]. }
  rewrite Hz. reflexivity.
Qed.

Definition Bare (g : router) : Prop := forall c, In c (g_children g) -> collect W (routes_in W) c = [].
Lemma again_bare : forall g g', all_wf W g -> prepare g = Some g' -> ((exists g2, prepare g' = Some g2) <-> Bare g).
Proof.
  intros g g' Hw Hp. pose proof (prepare_all_wf g g' Hw Hp) as Hw'. pose proof (prepare_spec W g Hw) as P. rewrite Hp in P. destruct P as (P1 & P2 & _).
  pose proof (prepare_spec W g' Hw') as Q. destruct (prepare_shape g g' Hp) as [Em F]. split.
  - intros [g2 H2] c Hc. rewrite H2 in Q. destruct Q as (Q1 & Q2 & _). destruct Q1 as (_ & _ & Q1).
    assert (ND : NoDup (map fst (collect W (routes_in W) g'))).
    { eapply Permutation_NoDup; [apply Permutation_map; exact Q2|exact Q1]. }
    rewrite collect_eq, wrap_keys, map_app in ND. destruct (collect W (routes_in W) c) as [|[k h] l] eqn:El; [reflexivity|]. exfalso.
    apply (NoDup_app_disj _ _ _ k ND).
    + apply (Permutation_in _ (Permutation_map fst (Permutation_sym P2))). rewrite collect_eq, wrap_keys, map_app. apply in_or_app. right.
      apply in_map_iff. exists (k, h). split; [reflexivity|]. apply in_flat_map. exists c. split; [exact Hc|]. rewrite El. left. reflexivity.
    + apply In_nth_error in Hc. destruct Hc as [i Hi]. destruct (forall2_nth' _ _ _ _ _ F _ _ Hi) as (c' & Ei & Pc).
      assert (Hwc : all_wf W c) by (eapply all_wf_child; [exact Hw|eapply nth_error_In; exact Hi]).
      pose proof (prepare_spec W c Hwc) as R. rewrite Pc in R. destruct R as (_ & R & _). rewrite El in R.
      assert (Hk : In k (map fst (collect W (routes_in W) c'))).
      { rewrite collect_eq, wrap_keys, map_app. apply in_or_app. left. apply (Permutation_in _ (Permutation_map fst (Permutation_sym R))). left. reflexivity. }
      apply in_map_iff in Hk. destruct Hk as (e & Ee & Hk). apply in_map_iff. exists e. split; [exact Ee|]. apply in_flat_map. exists c'. split; [eapply nth_error_In; exact Ei|exact Hk].
  - intros HB. destruct (prepare g') as [g2|]; [exists g2; reflexivity|]. exfalso. apply Q. rewrite collect_eq, wrap_keys.
    assert (Hz : flat_map (collect W (routes_in W)) (g_children g') = []).
    { assert (Hch : forall c, In c (g_children g) -> all_wf W c) by (intros c Hc; eapply all_wf_child; [exact Hw|exact Hc]).
      unfold Bare in HB. clear - F HB Hch. induction F as [|c c' l l' Hc F IHF]; [reflexivity|]. cbn [flat_map].
      rewrite (below_nil c c' (Hch c (or_introl eq_refl)) Hc (HB c (or_introl eq_refl))). cbn [app]. apply IHF; intros x Hx; [apply HB|apply Hch]; right; exact Hx. }
    rewrite Hz, app_nil_r. destruct P1 as (_ & _ & P1). exact P1.
Qed.
Lemma again_routes : forall g g' g2, all_wf W g -> prepare g = Some g' -> prepare g' = Some g2 ->
  wf W (rg_routes (g_reg g2)) /\ Permutation (flat W (rg_routes (g_reg g2))) (wrap W (g_mws g) (flat W (rg_routes (g_reg g')))).
Proof.
  intros g g' g2 Hw Hp H2. pose proof (prepare_all_wf g g' Hw Hp) as Hw'.
  assert (HB : Bare g) by (apply (again_bare g g' Hw Hp); exists g2; exact H2).
  pose proof (prepare_spec W g' Hw') as Q. rewrite H2 in Q. destruct Q as (Q0 & Q & _). destruct (prepare_shape g g' Hp) as [Em F]. split; [exact Q0|].
  rewrite collect_eq in Q.
  assert (Hz : flat_map (collect W (routes_in W)) (g_children g') = []).
  { assert (Hch : forall c, In c (g_children g) -> all_wf W c) by (intros c Hc; eapply all_wf_child; [exact Hw|exact Hc]).
    unfold Bare in HB. clear - F HB Hch. induction F as [|c c' l l' Hc F IHF]; [reflexivity|]. cbn [flat_map].
    rewrite (below_nil c c' (Hch c (or_introl eq_refl)) Hc (HB c (or_introl eq_refl))). cbn [app]. apply IHF; intros x Hx; [apply HB|apply Hch]; right; exact Hx. }
  rewrite Hz, app_nil_r, Em in Q. exact Q.
Qed.

Lemma bare_calls : forall (os : ops) g, Inv W os g -> (Bare g <-> forall addr m p h ms, In (addr, Route m p h ms) os -> addr = []).
Proof.
  intros os g HI. split.
  - intros HB [|i addr] m p h ms H; [reflexivity|]. exfalso. destruct HI as [HI HS]. pose proof (HS _ H) as S0. cbn [fst] in S0.
    destruct (sub W g (i :: addr)) as [c|] eqn:Es; [|contradiction]. destruct (HI _ _ Es) as (_ & _ & _ & _ & _ & _ & O7 & _).
    assert (Hi : In (normalize (full_prefix os (i :: addr) ++ p), m, behind ms h) (flat W (rg_routes (g_reg c)))).
    { apply (Permutation_in _ (Permutation_sym O7)). apply in_flat_map. exists (Route m p h ms). split; [|left; reflexivity].
      unfold calls. apply in_map_iff. exists (i :: addr, Route m p h ms). split; [reflexivity|]. apply filter_In. split; [exact H|]. cbn [fst].
      unfold addr_eqb. destruct (list_eq_dec Nat.eq_dec (i :: addr) (i :: addr)); [reflexivity|contradiction]. }
    cbn [sub] in Es. destruct (nth_error (g_children g) i) as [d|] eqn:Ei; [|discriminate]. apply nth_error_In in Ei.
    assert (Hk : In (normalize (full_prefix os (i :: addr) ++ p), m) (map fst (collect W (routes_in W) d))).
    { apply collect_in. exists addr, c. split; [exact Es|]. apply (in_map fst) in Hi. exact Hi. }
    rewrite (HB d Ei) in Hk. destruct Hk.
  - intros HA c Hc. destruct (collect W (routes_in W) c) as [|[k h] l] eqn:El; [reflexivity|]. exfalso.
    assert (Hk : In k (map fst (collect W (routes_in W) c))) by (rewrite El; left; reflexivity).
    apply collect_in in Hk. destruct Hk as (addr & d & D1 & D2). apply In_nth_error in Hc. destruct Hc as [i Hi].
    destruct HI as [HI _]. assert (Es : sub W g (i :: addr) = Some d) by (cbn [sub]; rewrite Hi; exact D1).
    destruct (HI _ _ Es) as (_ & _ & _ & _ & _ & _ & O7 & _). apply in_map_iff in D2. destruct D2 as (e & _ & D2).
    apply (Permutation_in _ O7) in D2. apply in_flat_map in D2. destruct D2 as (o & Ho & D2).
    destruct o as [m p h' ms|ms|p h' ms|mu|f t|p|h' cs]; cbn [route_items] in D2; try contradiction.
    unfold calls in Ho. apply in_map_iff in Ho. destruct Ho as ([a o] & E & Ho). cbn [snd] in E. subst o. apply filter_In in Ho. destruct Ho as [Ho Ha]. cbn [fst] in Ha.
    unfold addr_eqb in Ha. destruct (list_eq_dec Nat.eq_dec a (i :: addr)) as [-> |]; [|discriminate]. pose proof (HA _ _ _ _ _ Ho) as E. discriminate E.
Qed.

Theorem repeats : forall (os : ops) a g, build os new_app = Some a -> prepare (a_root a) = Some g ->
  ((exists g2, prepare g = Some g2) <-> forall addr m p h ms, In (addr, Route m p h ms) os -> addr = []).
Proof.
  intros os a g H Hp. pose proof (build_inv W os a H) as HI. rewrite (again_bare _ _ (inv_wf W _ _ HI) Hp). apply bare_calls. exact HI.
Qed.
Theorem repeated : forall (os : ops) a g g2, build os new_app = Some a -> prepare (a_root a) = Some g -> prepare g = Some g2 ->
  forall p m h, (exists t, In (p, t) (rg_routes (g_reg g2)) /\ In (m, h) t) <->
    exists h0, In (p, m, h0) (registered os) /\ h = behind (uses os []) h0.
Proof.
  intros os a g g2 H Hp H2 p m h. pose proof (build_inv W os a H) as HI. pose proof (inv_wf W _ _ HI) as Hw.
  destruct (again_routes _ _ _ Hw Hp H2) as [_ HQ]. pose proof (prepared W os a H) as HP. rewrite Hp in HP. destruct HP as (_ & HR & _).
  destruct HI as [HI _]. destruct (HI [] (a_root a) eq_refl) as (_ & Em & _). rewrite Em in HQ.
  rewrite <- in_flat. split.
  - intros Hi. apply (Permutation_in _ HQ) in Hi. apply in_map_iff in Hi. destruct Hi as ([[p0 m0] h0] & E & Hi). cbn [fst snd] in E. injection E as -> -> <-.
    exists h0. split; [apply (Permutation_in _ HR); exact Hi|reflexivity].
  - intros (h0 & Hi & ->). apply (Permutation_in _ (Permutation_sym HQ)). apply in_map_iff. exists (p, m, h0). split; [reflexivity|].
    apply (Permutation_in _ (Permutation_sym HR)). exact Hi.
Qed.
End Again.
