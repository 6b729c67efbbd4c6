From Verif Require Import M_Base M_Https M_Started M_Modes S_Modes S_Https L_Base L_Https L_Https2 L_Started.
From Coq Require Import Lia List.
Import ListNotations.

Section Three.
Variables cache cert key : bytes.
Hypothesis D1 : cert <> key.
Hypothesis D2 : cache <> cert.
Hypothesis D3 : cache <> key.

(* a function that makes no directory but cache and no file but cert and key, and writes to
   files it has made; made: those *)
Inductive Only : list bytes -> fprog outcome -> Prop :=
| O_ret made a : Only made (FRet a)
| O_stat made q k : (forall n, Only made (k n)) -> Only made (FStat q k)
| O_mk made k : (forall b, Only made (k b)) -> Only made (FMkdirAll cache k)
| O_create made q k : q = cert \/ q = key -> Only (q :: made) (k true) -> Only made (k false) -> Only made (FCreate q k)
| O_write made q b k : In q made -> (forall x, Only made (k x)) -> Only made (FWrite q b k)
| O_gen made k : (forall x, Only made (k x)) -> Only made (FGenKey k)
| O_now made k : (forall x, Only made (k x)) -> Only made (FNow k)
| O_make made k : (forall x, Only made (k x)) -> Only made (FMake k).
Lemma only_gen : Only [] (generate cache cert key).
Proof.
  assert (R : forall k t, Only [] (p6 cert key k t)).
  { intros k t. unfold p6. constructor. intros b. destruct b; cbn; [|constructor]. unfold p7. constructor; [auto| |constructor]. cbn.
    unfold p8. constructor; [left; reflexivity|]. intros b. destruct b; cbn; [|constructor]. unfold p9. constructor; [auto| |constructor]. cbn.
    unfold p10. constructor. intros b. destruct b; cbn; [|constructor]. unfold p11. constructor; [left; reflexivity|]. intros b. destruct b; cbn; constructor. }
  assert (Q : forall b, Only [] (body cert key b)).
  { intros b. destruct b; cbn; [|constructor]. unfold p4. constructor. intros [k|]; [|constructor]. unfold p5. constructor. intros t. exact (R k t). }
  rewrite gen_eq. unfold p0. constructor. intros n.
  assert (P2 : Only [] (p2 cache cert key)). { unfold p2. constructor. intros [[|c]|]; [apply Q| |]; constructor; exact Q. }
  destruct (is_file n); [|exact P2]. unfold p1. constructor. intros n'. destruct (is_file n'); [constructor|exact P2].
Qed.
Lemma mode_same m q n : set_mode m q n q = n.
Proof. unfold set_mode. rewrite beqb_refl. reflexivity. Qed.
Lemma mode_other m q n p : p <> q -> set_mode m q n p = m p.
Proof. intros N. unfold set_mode. destruct (beqb p q) eqn:E; [apply beqb_eq in E; contradiction|reflexivity]. Qed.

Definition Kept (f0 f : fs) (m0 m : modes) (q : bytes) (made : N) : Prop :=
  match f0 q with
  | None => f q = None \/ m q = made
  | Some _ => f q <> None /\ m q = m0 q
  end.
Lemma kept_all umask priv now f0 m0 : forall n made p f m g m' p', Only made p -> (forall r, In r made -> f r <> None) -> moded umask priv now n p f m = (g, m', p') ->
  Kept f0 f m0 m key (N.ldiff mode_file umask) -> Kept f0 f m0 m cert (N.ldiff mode_file umask) -> Kept f0 f m0 m cache (N.ldiff mode_dir umask) ->
  Kept f0 g m0 m' key (N.ldiff mode_file umask) /\ Kept f0 g m0 m' cert (N.ldiff mode_file umask) /\ Kept f0 g m0 m' cache (N.ldiff mode_dir umask).
Proof.
  induction n as [|n IH]; intros made p f m g m' p' O M H K1 K2 K3; cbn [moded] in H; [injection H as <- <- <-; auto|].
  destruct O as [made a|made q k O|made k O|made q k Q O OF|made q b k Q O|made k O|made k O|made k O]; cbn [prim prim_mode] in H.
  - apply (IH made _ _ _ _ _ _ (O_ret made a) M H); assumption.
  - eapply IH; eauto.
  - destruct (f cache) as [[|c]|] eqn:E.
    + eapply IH; [apply O| |exact H| | |]; [intros r I; unfold set_node; destruct (beqb r cache); [discriminate|exact (M r I)]|..]; unfold Kept in *; rewrite ?set_other, ?set_same by congruence; try assumption.
      destruct (f0 cache); [split; [discriminate|apply K3]|]. rewrite E in K3. destruct K3 as [|K3]; [discriminate|right; exact K3].
    + eapply IH; eauto.
    + eapply IH; [apply O| |exact H| | |]; [intros r I; unfold set_node; destruct (beqb r cache); [discriminate|exact (M r I)]|..]; unfold Kept in *; rewrite ?set_other, ?set_same, ?mode_other, ?mode_same by congruence; try assumption.
      rewrite E in K3. destruct (f0 cache); [destruct K3 as [K3 _]; contradiction|right; reflexivity].
  - assert (A : forall r, r <> q -> forall x, Kept f0 f m0 m r x -> Kept f0 (set_node f q (NFile CEmpty)) m0 m r x) by (intros r Nr x; unfold Kept; rewrite set_other by exact Nr; auto).
    assert (A' : forall r, r <> q -> forall x y, Kept f0 f m0 m r x -> Kept f0 (set_node f q (NFile CEmpty)) m0 (set_mode m q y) r x) by (intros r Nr x y; unfold Kept; rewrite set_other, mode_other by exact Nr; auto).
    assert (Bq : forall x, f q <> None -> Kept f0 f m0 m q x -> Kept f0 (set_node f q (NFile CEmpty)) m0 m q x).
    { intros x Nf. unfold Kept. rewrite set_same. destruct (f0 q); intros K; [split; [discriminate|apply K]|]. destruct K; [contradiction|right; assumption]. }
    assert (Bq' : f q = None -> Kept f0 f m0 m q (N.ldiff mode_file umask) -> Kept f0 (set_node f q (NFile CEmpty)) m0 (set_mode m q (N.ldiff mode_file umask)) q (N.ldiff mode_file umask)).
    { intros Nf. unfold Kept. rewrite set_same, mode_same. destruct (f0 q); intros K; [destruct K; contradiction|right; reflexivity]. }
    assert (M' : forall r, In r (q :: made) -> set_node f q (NFile CEmpty) r <> None) by (intros r [->|I]; [rewrite set_same; discriminate|unfold set_node; destruct (beqb r q); [discriminate|exact (M r I)]]).
    assert (NQ : cache <> q) by (destruct Q; congruence).
    destruct (f q) as [[|c]|] eqn:E; [eapply IH; eauto| |].
    + eapply IH; [apply O|exact M'|exact H| | |]; [| |apply A; auto].
      * destruct Q as [->| ->]; [apply A; auto|apply Bq; [discriminate|exact K1]].
      * destruct Q as [->| ->]; [apply Bq; [discriminate|exact K2]|apply A; auto].
    + eapply IH; [apply O|exact M'|exact H| | |]; [| |apply A'; auto].
      * destruct Q as [->| ->]; [apply A'; auto|apply Bq'; auto].
      * destruct Q as [->| ->]; [apply Bq'; auto|apply A'; auto].
  - assert (A : forall r x, Kept f0 f m0 m r x -> Kept f0 (set_node f q (written (f q) b)) m0 m r x).
    { intros r x K. unfold Kept in *. destruct (beqb r q) eqn:E.
      - apply beqb_eq in E. subst r. rewrite set_same. destruct (f0 q); [split; [discriminate|apply K]|]. right. destruct K as [K|K]; [exfalso; exact (M q Q K)|exact K].
      - rewrite set_other by (intros ->; rewrite beqb_refl in E; discriminate). exact K. }
    eapply IH; [apply O| |exact H| | |]; [|apply A; assumption|apply A; assumption|apply A; assumption].
    intros r I. unfold set_node. destruct (beqb r q); [discriminate|exact (M r I)].
  - eapply IH; eauto.
  - eapply IH; eauto.
  - eapply IH; eauto.
Qed.

Lemma kept_run umask priv now n f m g m' p' : moded umask priv now n (generate cache cert key) f m = (g, m', p') ->
  Kept f g m m' key (N.ldiff mode_file umask) /\ Kept f g m m' cert (N.ldiff mode_file umask) /\ Kept f g m m' cache (N.ldiff mode_dir umask).
Proof.
  intros H. assert (K : forall q x, Kept f f m m q x) by (intros q x; unfold Kept; destruct (f q); [split; [discriminate|reflexivity]|left; reflexivity]).
  eapply kept_all; [exact only_gen|intros r []|exact H| | |]; apply K.
Qed.
End Three.
Lemma dir_private w umask : may_search w (N.ldiff mode_dir umask) = false.
Proof. unfold may_search. rewrite N.ldiff_spec. destruct w; reflexivity. Qed.
Lemma file_public w umask : may_read w (N.ldiff mode_file umask) = negb (may_read w umask).
Proof. unfold may_read. rewrite N.ldiff_spec. destruct w; reflexivity. Qed.

