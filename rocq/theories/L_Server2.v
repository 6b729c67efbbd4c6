(* Lemmas about stopping: calls that block, goroutines that stay, and termination. *)
From Verif Require Import M_Base M_Server S_Server L_Base L_Server.

(* ---- calls ---- *)
Lemma told_step : forall s a s', Told s -> do a s = Some s' -> Told s'.
Proof.
  intros s a s' [H1 H2] H. pose proof (do_main s a s' H) as HM. unfold Told.
  destruct HM as [a N1 N2 N3|j Hj Lj|j Hj Lj|j Hj _|j Hj _|j u Hj _ _|j Hj _|j Hj _|j Hj _|j u Hj _ _|j Hj _|Hj|j u e Hj _ _|j e Hj _];
    try (split; [exact H1|exact H2]); try (exfalso; apply (H1 j); exact Hj); try contradiction; split; discriminate.
Qed.
Inductive cstep (s : sys) (a : act) (j : nat) : option call -> Prop :=
| Cs_same : cstep s a j (nth_error (y_calls s) j)
| Cs_call : forall e, a = ACall j -> nth_error (y_calls s) j = Some (CNew e) -> cstep s a j (Some (CSend e))
| Cs_take : forall e, a = ATakeCall j -> y_main s = MRecv -> nth_error (y_calls s) j = Some (CSend e) -> cstep s a j (Some CBack).
Lemma do_calls : forall s a s' j, do a s = Some s' -> cstep s a j (nth_error (y_calls s') j).
Proof.
  intros s a s' j H. assert (Same : y_calls s' = y_calls s -> cstep s a j (nth_error (y_calls s') j)) by (intros ->; constructor).
  destruct a as [|i|i|i|i|k|i|k]; cbn [do] in H; unfold main_step in H;
  repeat match type of H with
  | (match ?x with _ => _ end) = _ => destruct x eqn:?; try discriminate
  end; injection H as <-; try (apply Same; reflexivity).
  - cbn [upd_call y_calls]. rewrite upd_nth. destruct (Nat.eqb_spec k j) as [->|N]; [|constructor]. rewrite Heqo. cbn [option_map]. econstructor; [reflexivity|eassumption].
  - cbn [upd_call set_main y_calls]. rewrite upd_nth. destruct (Nat.eqb_spec k j) as [->|N]; [|constructor]. rewrite Heqo. cbn [option_map]. econstructor; [reflexivity|eassumption..].
Qed.
Theorem late_call : forall s s' j e, Told s -> nth_error (y_calls s) j = Some (CSend e) -> Reaches s s' -> nth_error (y_calls s') j = Some (CSend e).
Proof.
  intros s s' j e HT Hj HR. apply (reaches_inv (fun s => Told s /\ nth_error (y_calls s) j = Some (CSend e))) with (s := s); [|exact HR|split; assumption].
  intros t a t' [H1 H2] H. split; [exact (told_step t a t' H1 H)|]. destruct (do_calls t a t' j H) as [|e' -> H3|e' -> H3 H4]; [exact H2|congruence|]. destruct H1 as [_ H1]. contradiction.
Qed.
(* a call that has not come to its send yet does not return either *)
Theorem late_call_new : forall s s' j e, Told s -> nth_error (y_calls s) j = Some (CNew e) -> Reaches s s' -> nth_error (y_calls s') j <> Some CBack.
Proof.
  intros s s' j e HT Hj HR. assert (K : Told s' /\ (nth_error (y_calls s') j = Some (CNew e) \/ nth_error (y_calls s') j = Some (CSend e))).
  { apply (reaches_inv (fun s => Told s /\ (nth_error (y_calls s) j = Some (CNew e) \/ nth_error (y_calls s) j = Some (CSend e)))) with (s := s); [|exact HR|auto].
    intros t a t' [H1 H2] H. split; [exact (told_step t a t' H1 H)|]. destruct (do_calls t a t' j H) as [|e' -> H3|e' -> H3 H4]; [exact H2| |].
    - right. destruct H2 as [H2|H2]; congruence.
    - destruct H1 as [_ H1]. contradiction. }
  destruct K as [_ [K|K]]; rewrite K; discriminate.
Qed.

(* ---- goroutines ---- *)
Definition loop_at (s : sys) (k : nat) : option lpc := option_map v_loop (nth_error (y_srvs s) k).
Definition plain (o : option lpc) : Prop := match o with Some (LSend _) | Some LEnd => False | _ => True end.
Inductive lstep (s : sys) (a : act) (s' : sys) : Prop :=
| Ls_plain : (forall i, a <> ATakeLoop i) -> y_silent s' = y_silent s ->
    (forall k, loop_at s' k = loop_at s k \/ (plain (loop_at s k) /\ plain (loop_at s' k))) -> lstep s a s'
| Ls_end : forall i e, a = ALoop i -> y_silent s = true -> y_silent s' = true -> loop_at s i = Some (LSwap e) -> loop_at s' i = Some LEnd ->
    (forall k, k <> i -> loop_at s' k = loop_at s k) -> lstep s a s'
| Ls_send : forall i e, a = ALoop i -> y_silent s = false -> y_silent s' = true -> loop_at s i = Some (LSwap e) -> loop_at s' i = Some (LSend e) ->
    (forall k, k <> i -> loop_at s' k = loop_at s k) -> lstep s a s'
| Ls_take : forall i e, a = ATakeLoop i -> y_main s = MRecv -> y_silent s' = y_silent s -> loop_at s i = Some (LSend e) -> loop_at s' i = Some LEnd ->
    y_main s' = after e -> (forall k, k <> i -> loop_at s' k = loop_at s k) -> lstep s a s'.
Lemma loop_upd : forall s i f k, option_map v_loop (nth_error (upd (y_srvs s) i f) k) =
  if Nat.eqb i k then option_map (fun v => v_loop (f v)) (nth_error (y_srvs s) k) else loop_at s k.
Proof. intros s i f k. rewrite upd_nth. destruct (Nat.eqb i k); [|reflexivity]. destruct (nth_error (y_srvs s) k); reflexivity. Qed.
Lemma do_loops : forall s a s', Counts s -> do a s = Some s' -> lstep s a s'.
Proof.
  intros s a s' HC H.
  assert (One : forall i f s1, (forall i, a <> ATakeLoop i) -> y_silent s1 = y_silent s -> y_srvs s1 = upd (y_srvs s) i f ->
     (forall v, nth_error (y_srvs s) i = Some v -> v_loop (f v) = v_loop v \/ (plain (Some (v_loop v)) /\ plain (Some (v_loop (f v))))) -> lstep s a s1).
  { intros i f s1 Ha Hsil Hs Hf. apply Ls_plain; [exact Ha|exact Hsil|]. intros k. unfold loop_at at 1 4. rewrite Hs, loop_upd. destruct (Nat.eqb_spec i k) as [->|N]; [|left; reflexivity].
    unfold loop_at. destruct (nth_error (y_srvs s) k) as [v|] eqn:E; cbn [option_map]; [|left; reflexivity]. destruct (Hf v eq_refl) as [F|F]; [left; congruence|right; exact F]. }
  assert (Same : forall s1, (forall i, a <> ATakeLoop i) -> y_silent s1 = y_silent s -> y_srvs s1 = y_srvs s -> lstep s a s1).
  { intros s1 Ha H1 H2. apply Ls_plain; [exact Ha|exact H1|]. intros k. left. unfold loop_at. rewrite H2. reflexivity. }
  destruct a as [|i|i|i|i|j|i|j]; cbn [do] in H.
  - unfold main_step in H. destruct (y_main s) eqn:Em; try discriminate.
    + destruct (Nat.ltb i (List.length (y_srvs s))); injection H as <-; [|apply Same; try discriminate; reflexivity].
      apply (One i (set_loop LLoad)); [discriminate|reflexivity|reflexivity|]. intros v Hv. right. destruct (HC i v Hv) as (_ & _ & _ & D).
      assert (E : v_loop v = LIdle) by (apply D; exists i; auto). rewrite E. split; exact I.
    + destruct (Nat.ltb i (List.length (y_srvs s))); injection H as <-; [|apply Same; try discriminate; reflexivity].
      apply (One i set_paused); [discriminate|reflexivity|reflexivity|]. intros v Hv. left. reflexivity.
    + destruct (nth_error (y_srvs s) i) as [v|]; [destruct (Nat.eqb (v_wg v) 0); [|discriminate]|]; injection H as <-; apply Same; try discriminate; reflexivity.
    + destruct (Nat.ltb i (List.length (y_srvs s))); injection H as <-; [|apply Same; try discriminate; reflexivity].
      apply (One i set_closed); [discriminate|reflexivity|reflexivity|]. intros v Hv. left. reflexivity.
    + destruct (nth_error (y_srvs s) i) as [v|]; [destruct (Nat.eqb (v_wg v) 0); [|discriminate]|]; injection H as <-; apply Same; try discriminate; reflexivity.
    + injection H as <-. apply Same; try discriminate; reflexivity.
  - destruct (nth_error (y_srvs s) i) as [v|] eqn:Ei; [|discriminate]. destruct (v_loop v) eqn:El; try discriminate; injection H as <-.
    + eapply (One i); [discriminate|reflexivity|reflexivity|]. intros u Hu. rewrite Ei in Hu. injection Hu as <-. rewrite El. right. split; [exact I|]. fields_in. destruct (v_shutdown v); exact I.
    + eapply (One i); [discriminate|reflexivity|reflexivity|]. intros u Hu. rewrite Ei in Hu. injection Hu as <-. rewrite El. right. split; exact I.
    + eapply (One i); [discriminate|reflexivity|reflexivity|]. intros u Hu. rewrite Ei in Hu. injection Hu as <-. rewrite El. right. split; exact I.
    + assert (L0 : loop_at s i = Some (LSwap e)) by (unfold loop_at; rewrite Ei; cbn; rewrite El; reflexivity).
      destruct (y_silent s) eqn:Es.
      * apply (Ls_end s (ALoop i) _ i e); [reflexivity|exact Es|reflexivity|exact L0| |].
        -- unfold loop_at. cbn [upd_srv y_srvs]. rewrite loop_upd, Nat.eqb_refl, Ei. reflexivity.
        -- intros k N. unfold loop_at at 1. cbn [upd_srv y_srvs]. rewrite loop_upd. destruct (Nat.eqb_spec i k); [congruence|reflexivity].
      * apply (Ls_send s (ALoop i) _ i e); [reflexivity|exact Es|reflexivity|exact L0| |].
        -- unfold loop_at. cbn [upd_srv y_srvs]. rewrite loop_upd, Nat.eqb_refl, Ei. reflexivity.
        -- intros k N. unfold loop_at at 1. cbn [upd_srv y_srvs]. rewrite loop_upd. destruct (Nat.eqb_spec i k); [congruence|reflexivity].
  - destruct (nth_error (y_srvs s) i) as [v|] eqn:Ei; [|discriminate]. destruct (v_loop v) eqn:El; try discriminate. destruct (v_closed v || v_deadline v); [discriminate|]. injection H as <-.
    eapply (One i); [discriminate|reflexivity|reflexivity|]. intros u Hu. rewrite Ei in Hu. injection Hu as <-. rewrite El. right. split; exact I.
  - destruct (nth_error (y_srvs s) i) as [v|] eqn:Ei; [|discriminate]. destruct (v_loop v) eqn:El; try discriminate. injection H as <-.
    eapply (One i); [discriminate|reflexivity|reflexivity|]. intros u Hu. rewrite Ei in Hu. injection Hu as <-. rewrite El. right. split; exact I.
  - destruct (nth_error (y_srvs s) i) as [v|] eqn:Ei; [|discriminate]. destruct (v_handlers v) eqn:El; try discriminate. injection H as <-.
    eapply (One i); [discriminate|reflexivity|reflexivity|]. intros u Hu. left. reflexivity.
  - destruct (nth_error (y_calls s) j) as [[e|e|]|]; try discriminate. injection H as <-. apply Same; try discriminate; reflexivity.
  - destruct (y_main s) eqn:Em; try discriminate. destruct (nth_error (y_srvs s) i) as [v|] eqn:Ei; [|discriminate]. destruct (v_loop v) eqn:El; try discriminate. injection H as <-.
    apply (Ls_take s (ATakeLoop i) _ i e); [reflexivity|exact Em|reflexivity| | |reflexivity|].
    + unfold loop_at. rewrite Ei. cbn. rewrite El. reflexivity.
    + unfold loop_at. cbn [upd_srv set_main y_srvs]. rewrite loop_upd, Nat.eqb_refl, Ei. reflexivity.
    + intros k N. unfold loop_at at 1. cbn [upd_srv set_main y_srvs]. rewrite loop_upd. destruct (Nat.eqb_spec i k); [congruence|reflexivity].
  - destruct (y_main s) eqn:Em; try discriminate. destruct (nth_error (y_calls s) j) as [[e|e|]|]; try discriminate. injection H as <-. apply Same; try discriminate; reflexivity.
Qed.

Definition SendAt (s : sys) (k : nat) : Prop := exists e, loop_at s k = Some (LSend e).
Definition Leaks (s : sys) : Prop :=
  (forall k, (SendAt s k \/ loop_at s k = Some LEnd) -> y_silent s = true) /\
  (forall k k', SendAt s k -> SendAt s k' -> k = k') /\
  (~ Told s -> ~ ByCall s /\ (y_silent s = true -> exists k, SendAt s k)) /\
  (Told s -> ByCall s -> y_silent s = true -> exists k, SendAt s k) /\
  (Told s -> ~ ByCall s -> y_silent s = true /\ forall k, ~ SendAt s k).
Lemma told_dec : forall s, Told s \/ ~ Told s.
Proof. intros s. unfold Told. destruct (y_main s) eqn:E; try (left; split; discriminate); right; intros [H1 H2]; [exact (H1 i eq_refl)|exact (H2 eq_refl)]. Qed.
Lemma by_call_dec : forall s, ByCall s \/ ~ ByCall s.
Proof.
  intros s. unfold ByCall. induction (y_calls s) as [|c l IH]; [right; intros ([|j] & H); discriminate|].
  destruct IH as [(j & H)|N]; [left; exists (S j); exact H|]. destruct c; try (right; intros ([|j] & H); [discriminate|apply N; exists j; exact H]). left. exists 0%nat. reflexivity.
Qed.
Lemma told_take : forall s a s', do a s = Some s' -> ~ Told s -> Told s' -> (exists i, a = ATakeLoop i) \/ (exists j, a = ATakeCall j /\ nth_error (y_calls s') j = Some CBack).
Proof.
  intros s a s' H HN HT. pose proof (do_main s a s' H) as HM. unfold Told in HN, HT. remember (y_main s') as m eqn:Em.
  destruct HM as [a N1 N2 N3|j Hj Lj|j Hj Lj|j Hj _|j Hj _|j u Hj _ _|j Hj _|j Hj _|j Hj _|j u Hj _ _|j Hj _|Hj|j u e Hj _ _|j e Hj Hc];
    try (exfalso; apply HN; rewrite Hj; split; discriminate).
  - contradiction.
  - exfalso. destruct HT as [H1 _]. exact (H1 (S j) eq_refl).
  - exfalso. destruct HT as [_ H1]. exact (H1 eq_refl).
  - left. exists j. reflexivity.
  - right. exists j. split; [reflexivity|]. cbn [do] in H. rewrite Hj, Hc in H. injection H as <-. cbn [set_main upd_call y_calls]. rewrite upd_nth, Nat.eqb_refl, Hc. reflexivity.
Qed.
Lemma do_loop_main : forall s i s', do (ALoop i) s = Some s' -> y_main s' = y_main s.
Proof.
  intros s i s' H. cbn [do] in H. destruct (nth_error (y_srvs s) i) as [v|]; [|discriminate]. destruct (v_loop v); try discriminate; injection H as <-; reflexivity.
Qed.
Lemma by_call_step : forall s a s', do a s = Some s' -> (ByCall s -> ByCall s') /\ (ByCall s' -> ByCall s \/ exists j, a = ATakeCall j /\ y_main s = MRecv).
Proof.
  intros s a s' H. split.
  - intros (j & Hj). exists j. destruct (do_calls s a s' j H) as [|e -> H3|e -> H3 H4]; [exact Hj|congruence|congruence].
  - intros (j & Hj). pose proof (do_calls s a s' j H) as HC. rewrite Hj in HC. inversion HC as [E|e Ha He E|e Ha Hm He E]; [left; exists j; congruence|right; exists j; auto].
Qed.
Lemma leaks_step : forall s a s', Counts s -> Leaks s -> do a s = Some s' -> Leaks s'.
Proof.
  intros s a s' HC (I1 & I2 & I3 & I4 & I5) H. pose proof (do_loops s a s' HC H) as HL. destruct (by_call_step s a s' H) as [B1 B2]. pose proof (told_step s a s') as T1. pose proof (told_take s a s' H) as T2.
  destruct HL as [Ha Hs Hk|i e Ha S1 S2 L1 L2 Hk|i e Ha S1 S2 L1 L2 Hk|i e Ha Hm S1 L1 L2 Hm' Hk].
  - assert (KS : forall k, SendAt s' k <-> SendAt s k).
    { intros k. unfold SendAt. destruct (Hk k) as [->|[P1 P2]]; [reflexivity|]. split; intros (e & E); rewrite E in *; contradiction. }
    assert (KE : forall k, loop_at s' k = Some LEnd -> loop_at s k = Some LEnd).
    { intros k E. destruct (Hk k) as [<-|[P1 P2]]; [exact E|]. rewrite E in P2. contradiction. }
    assert (KX : (exists k, SendAt s' k) <-> exists k, SendAt s k) by (split; intros (k & E); exists k; apply KS; exact E).
    split; [|split; [|split; [|split]]].
    + intros k [E|E]; rewrite Hs; apply (I1 k); [left; apply KS; exact E|right; exact (KE k E)].
    + intros k k' E E'. apply I2; apply KS; assumption.
    + intros HN. assert (HN0 : ~ Told s) by (intros T; apply HN; exact (T1 T H)). destruct (I3 HN0) as [A1 A2]. split.
      * intros HB. destruct (B2 HB) as [HB'|(j & -> & Hm)]; [exact (A1 HB')|]. apply HN.
        cbn [do] in H. rewrite Hm in H. destruct (nth_error (y_calls s) j) as [[e|e|]|]; try discriminate. injection H as <-. unfold Told. cbn [set_main upd_call y_main]. destruct e; split; discriminate.
      * rewrite Hs, KX. exact A2.
    + intros HT HB. rewrite Hs, KX. destruct (told_dec s) as [T|N].
      * destruct (by_call_dec s) as [B|NB]; [exact (I4 T B)|]. exfalso. destruct (B2 HB) as [HB'|(j & -> & Hm)]; [contradiction|]. destruct T as [_ T]. contradiction.
      * exact (proj2 (I3 N)).
    + intros HT HB. rewrite Hs. destruct (told_dec s) as [T|N].
      * assert (NB : ~ ByCall s) by (intros B; apply HB; exact (B1 B)). destruct (I5 T NB) as [A1 A2]. split; [exact A1|]. intros k E. apply KS in E. exact (A2 k E).
      * exfalso. destruct (T2 N HT) as [(i & E)|(j & _ & E)]; [exact (Ha i E)|]. apply HB. exists j. exact E.
  - subst a. assert (KS : forall k, SendAt s' k <-> SendAt s k).
    { intros k. unfold SendAt. destruct (Nat.eq_dec k i) as [->|N]; [|rewrite (Hk k N); reflexivity]. rewrite L1, L2. split; intros (e' & E); discriminate. }
    assert (KX : (exists k, SendAt s' k) <-> exists k, SendAt s k) by (split; intros (k & E); exists k; apply KS; exact E).
    assert (HM : y_main s' = y_main s) by (apply (do_loop_main s i s' H)).
    assert (HT : Told s' <-> Told s) by (unfold Told; rewrite HM; reflexivity).
    assert (HB : ByCall s' <-> ByCall s) by (split; [intros B; destruct (B2 B) as [B'|(j & E & _)]; [exact B'|discriminate]|exact B1]).
    unfold Leaks. split; [intros; exact S2|]. split; [intros k k' E E'; apply I2; apply KS; assumption|]. rewrite HT, HB, KX. split; [intros N; destruct (I3 N) as [A1 A2]; split; [exact A1|auto]|].
    split; [intros T B _; exact (I4 T B S1)|]. intros T NB. destruct (I5 T NB) as [_ A2]. split; [exact S2|]. intros k E. apply KS in E. exact (A2 k E).
  - subst a. assert (HM : y_main s' = y_main s) by (apply (do_loop_main s i s' H)).
    assert (HT : Told s' <-> Told s) by (unfold Told; rewrite HM; reflexivity).
    assert (HB : ByCall s' <-> ByCall s) by (split; [intros B; destruct (B2 B) as [B'|(j & E & _)]; [exact B'|discriminate]|exact B1]).
    assert (KI : SendAt s' i) by (exists e; exact L2).
    assert (No : forall k, ~ SendAt s k) by (intros k E; assert (y_silent s = true) by (apply (I1 k); left; exact E); congruence).
    assert (KU : forall k, SendAt s' k -> k = i) by (intros k (e' & E); destruct (Nat.eq_dec k i) as [->|N]; [reflexivity|]; exfalso; apply (No k); exists e'; rewrite <- (Hk k N); exact E).
    unfold Leaks. split; [intros; exact S2|]. split; [intros k k' E E'; rewrite (KU k E), (KU k' E'); reflexivity|]. rewrite HT, HB.
    split; [intros N; destruct (I3 N) as [A1 _]; split; [exact A1|intros _; exists i; exact KI]|]. split; [intros _ _ _; exists i; exact KI|].
    intros T NB. destruct (I5 T NB) as [A1 _]. congruence.
  - subst a. assert (Sil : y_silent s = true) by (apply (I1 i); left; exists e; exact L1).
    assert (T0 : ~ Told s) by (intros [_ T]; contradiction).
    assert (T' : Told s') by (unfold Told; rewrite Hm'; destruct e; split; discriminate).
    assert (No : forall k, ~ SendAt s' k).
    { intros k (e' & E). destruct (Nat.eq_dec k i) as [->|N]; [congruence|]. rewrite (Hk k N) in E. apply N. apply I2; [exists e'; exact E|exists e; exact L1]. }
    assert (NB : ~ ByCall s') by (intros B; destruct (B2 B) as [B'|(j & E & _)]; [exact (proj1 (I3 T0) B')|discriminate]).
    unfold Leaks. split; [intros; congruence|]. split; [intros k k' E; exfalso; exact (No k E)|]. split; [intros N; contradiction|]. split; [intros _ B; contradiction|].
    intros _ _. split; [congruence|exact No].
Qed.
Lemma leaks_start : forall ds stops, Leaks (sys_start ds stops).
Proof.
  intros ds stops. assert (E : forall k, loop_at (sys_start ds stops) k = None \/ loop_at (sys_start ds stops) k = Some LIdle).
  { intros k. unfold loop_at. cbn [sys_start y_srvs]. rewrite nth_error_map. destruct (nth_error ds k); auto. }
  assert (No : forall k, ~ SendAt (sys_start ds stops) k) by (intros k (e & H); destruct (E k); congruence).
  assert (T : ~ Told (sys_start ds stops)) by (intros [H _]; exact (H 0%nat eq_refl)).
  assert (NB : ~ ByCall (sys_start ds stops)).
  { intros (j & H). cbn [sys_start y_calls] in H. rewrite nth_error_map in H. destruct (nth_error stops j); discriminate. }
  split; [intros k [H|H]; [exfalso; exact (No k H)|destruct (E k); congruence]|]. split; [intros k k' H; exfalso; exact (No k H)|].
  split; [intros _; split; [exact NB|discriminate]|]. split; [intros _ B; contradiction|]. intros; contradiction.
Qed.
Lemma leaks_possible : forall ds stops s, Possible ds stops s -> Counts s /\ Leaks s.
Proof.
  intros ds stops s H. apply (reaches_inv (fun s => Counts s /\ Leaks s)) with (s := sys_start ds stops); [|exact H|split; [apply counts_start|apply leaks_start]].
  intros t a t' [H1 H2] Hd. split; [exact (counts_step t a t' H1 Hd)|exact (leaks_step t a t' H1 H2 Hd)].
Qed.

(* a goroutine stays whenever a call of Stop or GracefulStop returned *)
Lemma loop_at_srv : forall s k v, nth_error (y_srvs s) k = Some v -> loop_at s k = Some (v_loop v).
Proof. intros s k v H. unfold loop_at. rewrite H. reflexivity. Qed.
Theorem stays : forall ds stops s, ds <> [] -> Possible ds stops s -> ByCall s -> exists k v, nth_error (y_srvs s) k = Some v /\ ~ Ended v.
Proof.
  intros ds stops s Hd HP HB. destruct (leaks_possible ds stops s HP) as [HC (I1 & _ & I3 & I4 & _)].
  assert (HT : Told s) by (destruct (told_dec s) as [T|N]; [exact T|]; destruct (I3 N) as [A _]; contradiction).
  assert (HL : List.length (y_srvs s) = List.length ds).
  { apply (reaches_inv (fun s => List.length (y_srvs s) = List.length ds)) with (s := sys_start ds stops); [|exact HP|cbn; apply map_length].
    intros t a t' H1 H. rewrite (do_length t a t' H). exact H1. }
  destruct (y_srvs s) as [|v l] eqn:El; [destruct ds; [contradiction|discriminate]|].
  destruct (v_loop v) eqn:Ev; try (exists 0%nat, v; split; [reflexivity|unfold Ended; congruence]).
  assert (Sil : y_silent s = true) by (apply (I1 0%nat); right; unfold loop_at; rewrite El; cbn; rewrite Ev; reflexivity).
  destruct (I4 HT HB Sil) as (k & e & E). unfold loop_at in E. rewrite El in E. destruct (nth_error (v :: l) k) as [u|] eqn:Eu; [|discriminate].
  exists k, u. split; [exact Eu|]. unfold Ended. cbn in E. congruence.
Qed.
(* when nothing is left to do for them, all goroutines but one are over; none is left if
   the error came from a listener *)
Lemma rest_cases : forall s k v, Counts s -> Told s -> LoopsRest s -> nth_error (y_srvs s) k = Some v -> Ended v \/ Sends v.
Proof.
  intros s k v HC [HT1 HT2] HR Hv. destruct (HR k) as (R1 & R2 & R3). cbn [do] in *. rewrite Hv in *. unfold Ended, Sends.
  destruct (v_loop v) eqn:E; try discriminate; [|eauto|auto].
  exfalso. destruct (HC k v Hv) as (_ & _ & _ & D). apply D in E. destruct E as (i & Ei & _). exact (HT1 i Ei).
Qed.
Theorem rest_by_call : forall ds stops s, ds <> [] -> Possible ds stops s -> ByCall s -> LoopsRest s ->
  exists k, (exists v, nth_error (y_srvs s) k = Some v /\ Sends v) /\ forall k' v', k' <> k -> nth_error (y_srvs s) k' = Some v' -> Ended v'.
Proof.
  intros ds stops s Hd HP HB HR. destruct (leaks_possible ds stops s HP) as [HC (I1 & I2 & I3 & I4 & _)].
  assert (HT : Told s) by (destruct (told_dec s) as [T|N]; [exact T|]; destruct (I3 N) as [A _]; contradiction).
  destruct (stays ds stops s Hd HP HB) as (k & v & Hv & Ne). destruct (rest_cases s k v HC HT HR Hv) as [|HS]; [contradiction|].
  exists k. split; [exists v; auto|]. intros k' v' N Hv'. destruct (rest_cases s k' v' HC HT HR Hv') as [E|(e' & HS')]; [exact E|]. exfalso. apply N.
  destruct HS as (e & HS). apply I2; [exists e'; rewrite (loop_at_srv s k' v' Hv'), HS'|exists e; rewrite (loop_at_srv s k v Hv), HS]; reflexivity.
Qed.
Theorem rest_by_listener : forall ds stops s, Possible ds stops s -> Told s -> ~ ByCall s -> LoopsRest s -> forall k v, nth_error (y_srvs s) k = Some v -> Ended v.
Proof.
  intros ds stops s HP HT HB HR k v Hv. destruct (leaks_possible ds stops s HP) as [HC (_ & _ & _ & _ & I5)].
  destruct (rest_cases s k v HC HT HR Hv) as [E|(e & HS)]; [exact E|]. exfalso. destruct (I5 HT HB) as [_ A]. apply (A k). exists e. rewrite (loop_at_srv s k v Hv), HS. reflexivity.
Qed.

(* ---- termination ---- *)
Definition loop_w (l : lpc) : nat := match l with LIdle => 6 | LAdd => 8 | LGo => 7 | LLoad => 5 | LAccept => 4 | LSwap _ => 3 | LSend _ => 2 | LEnd => 0 end.
Definition srv_w (v : srv) : nat := loop_w (v_loop v) + v_handlers v.
Definition call_w (c : call) : nat := match c with CNew _ => 2 | CSend _ => 1 | CBack => 0 end.
Definition main_w (n : nat) (m : mpc) : nat :=
  match m with
  | MRet => 0 | MHook => 1 | MStopWait i => 2 + (n - i) | MStop i => (n + 3) + (n - i) | MPauseWait i => (2 * n + 4) + (n - i)
  | MPause i => (3 * n + 5) + (n - i) | MRecv => 4 * n + 6 | MSpawn i => (4 * n + 7) + (n - i)
  end.
Fixpoint total {A} (w : A -> nat) (l : list A) : nat := match l with [] => 0 | x :: l' => w x + total w l' end.
Definition weight (s : sys) : nat := main_w (List.length (y_srvs s)) (y_main s) + total srv_w (y_srvs s) + total call_w (y_calls s).
Lemma total_upd : forall A (w : A -> nat) l i f v, nth_error l i = Some v -> (total w (upd l i f) + w v = total w l + w (f v))%nat.
Proof. intros A w l. induction l as [|x l IH]; intros [|i] f v H; cbn in *; try discriminate; [injection H as ->; lia|]. specialize (IH i f v H). lia. Qed.
Lemma weight_step : forall s a s', Counts s -> NotClient a -> do a s = Some s' -> (weight s' < weight s)%nat.
Proof.
  intros s a s' HC HA H. unfold weight. rewrite (do_length s a s' H).
  destruct a as [|i|i|i|i|j|i|j]; cbn [do] in H.
  - unfold main_step in H. destruct (y_main s) eqn:Em; try discriminate.
    + destruct (Nat.ltb_spec i (List.length (y_srvs s))) as [L|L]; injection H as <-; cbn [set_main upd_srv y_main y_srvs y_calls main_w]; [|lia].
      destruct (nth_error (y_srvs s) i) as [v|] eqn:Ei; [|apply nth_error_None in Ei; lia].
      destruct (HC i v Ei) as (_ & _ & _ & D). assert (E : v_loop v = LIdle) by (apply D; exists i; auto).
      pose proof (total_upd srv srv_w (y_srvs s) i (set_loop LLoad) v Ei) as T. unfold srv_w at 2 4 in T. cbn [set_loop v_loop v_handlers] in T. rewrite E in T. cbn [loop_w] in T. lia.
    + destruct (Nat.ltb_spec i (List.length (y_srvs s))) as [L|L]; injection H as <-; cbn [set_main upd_srv y_main y_srvs y_calls main_w]; [|lia].
      destruct (nth_error (y_srvs s) i) as [v|] eqn:Ei; [|apply nth_error_None in Ei; lia].
      pose proof (total_upd srv srv_w (y_srvs s) i set_paused v Ei) as T. unfold srv_w at 2 4 in T. cbn [set_paused v_loop v_handlers] in T. lia.
    + destruct (nth_error (y_srvs s) i) as [v|] eqn:Ei; [destruct (Nat.eqb (v_wg v) 0); [|discriminate]|]; injection H as <-; cbn [set_main upd_srv y_main y_srvs y_calls main_w]; [|lia].
      assert (i < List.length (y_srvs s))%nat by (apply nth_error_Some; congruence). lia.
    + destruct (Nat.ltb_spec i (List.length (y_srvs s))) as [L|L]; injection H as <-; cbn [set_main upd_srv y_main y_srvs y_calls main_w]; [|lia].
      destruct (nth_error (y_srvs s) i) as [v|] eqn:Ei; [|apply nth_error_None in Ei; lia].
      pose proof (total_upd srv srv_w (y_srvs s) i set_closed v Ei) as T. unfold srv_w at 2 4 in T. cbn [set_closed v_loop v_handlers] in T. lia.
    + destruct (nth_error (y_srvs s) i) as [v|] eqn:Ei; [destruct (Nat.eqb (v_wg v) 0); [|discriminate]|]; injection H as <-; cbn [set_main upd_srv y_main y_srvs y_calls main_w]; [|lia].
      assert (i < List.length (y_srvs s))%nat by (apply nth_error_Some; congruence). lia.
    + injection H as <-. cbn [set_main y_main y_srvs y_calls main_w]. lia.
  - destruct (nth_error (y_srvs s) i) as [v|] eqn:Ei; [|discriminate].
    destruct (v_loop v) eqn:El; try discriminate; injection H as <-; cbn [upd_srv y_main y_srvs y_calls];
    match goal with |- context [upd _ _ ?f] => pose proof (total_upd srv srv_w (y_srvs s) i f v Ei) as T end;
    unfold srv_w at 2 4 in T; cbn [set_loop set_wg set_handlers v_loop v_handlers] in T; rewrite ?El in T; cbn [loop_w] in T.
    + destruct (v_shutdown v); cbn [loop_w] in T; lia.
    + lia.
    + lia.
    + destruct (y_silent s); cbn [loop_w] in T; lia.
  - exfalso. exact (HA i eq_refl).
  - destruct (nth_error (y_srvs s) i) as [v|] eqn:Ei; [|discriminate]. destruct (v_loop v) eqn:El; try discriminate. injection H as <-. cbn [upd_srv y_main y_srvs y_calls].
    pose proof (total_upd srv srv_w (y_srvs s) i (set_loop (LSwap SAccept)) v Ei) as T. unfold srv_w at 2 4 in T. cbn [set_loop v_loop v_handlers] in T. rewrite El in T. cbn [loop_w] in T. lia.
  - destruct (nth_error (y_srvs s) i) as [v|] eqn:Ei; [|discriminate]. destruct (v_handlers v) as [|h] eqn:El; try discriminate. injection H as <-. cbn [upd_srv y_main y_srvs y_calls].
    pose proof (total_upd srv srv_w (y_srvs s) i (fun v => set_wg (pred (v_wg v)) (set_handlers h v)) v Ei) as T. unfold srv_w at 2 4 in T. cbn [set_wg set_handlers v_loop v_handlers] in T. lia.
  - destruct (nth_error (y_calls s) j) as [[e|e|]|] eqn:Ej; try discriminate. injection H as <-. cbn [upd_call y_main y_srvs y_calls].
    pose proof (total_upd call call_w (y_calls s) j (fun _ => CSend e) (CNew e) Ej) as T. cbn [call_w] in T. lia.
  - destruct (y_main s) eqn:Em; try discriminate. destruct (nth_error (y_srvs s) i) as [v|] eqn:Ei; [|discriminate]. destruct (v_loop v) eqn:El; try discriminate. injection H as <-. cbn [set_main upd_srv y_main y_srvs y_calls].
    pose proof (total_upd srv srv_w (y_srvs s) i (set_loop LEnd) v Ei) as T. unfold srv_w at 2 4 in T. cbn [set_loop v_loop v_handlers] in T. rewrite El in T. cbn [loop_w] in T. destruct e; cbn [after main_w]; lia.
  - destruct (y_main s) eqn:Em; try discriminate. destruct (nth_error (y_calls s) j) as [[e|e|]|] eqn:Ej; try discriminate. injection H as <-. cbn [set_main upd_call y_main y_srvs y_calls].
    pose proof (total_upd call call_w (y_calls s) j (fun _ => CBack) (CSend e) Ej) as T. cbn [call_w] in T. destruct e; cbn [after main_w]; lia.
Qed.
(* App.run goes on as long as somebody can do something *)
Lemma progress : forall s, Counts s -> Told s -> y_main s <> MRet -> exists a s', NotClient a /\ do a s = Some s'.
Proof.
  intros s HC [HT1 HT2] HM. assert (Main : forall s', main_step s = Some s' -> exists a s', NotClient a /\ do a s = Some s') by (intros s' E; exists AMain, s'; split; [discriminate|exact E]).
  assert (Wait : forall i v, nth_error (y_srvs s) i = Some v -> v_wg v <> 0%nat -> exists a s', NotClient a /\ do a s = Some s').
  { intros i v Hv Hw. destruct (HC i v Hv) as (A & _). destruct (v_handlers v) as [|h] eqn:Eh.
    - unfold counted in A. destruct (v_loop v) eqn:El; try lia. eexists (ALoop i), _. split; [discriminate|]. cbn [do]. rewrite Hv, El. reflexivity.
    - eexists (AHandler i), _. split; [discriminate|]. cbn [do]. rewrite Hv, Eh. reflexivity. }
  unfold main_step in Main. destruct (y_main s) eqn:Em; try congruence.
  - destruct (Nat.ltb i (List.length (y_srvs s))); eapply Main; reflexivity.
  - destruct (nth_error (y_srvs s) i) as [v|] eqn:Ei; [|eapply Main; reflexivity]. destruct (Nat.eqb_spec (v_wg v) 0); [eapply Main; reflexivity|]. exact (Wait i v Ei n).
  - destruct (Nat.ltb i (List.length (y_srvs s))); eapply Main; reflexivity.
  - destruct (nth_error (y_srvs s) i) as [v|] eqn:Ei; [|eapply Main; reflexivity]. destruct (Nat.eqb_spec (v_wg v) 0); [eapply Main; reflexivity|]. exact (Wait i v Ei n).
  - eapply Main; reflexivity.
Qed.
Lemma weight_acts : forall l s s', Counts s -> Forall NotClient l -> acts l s = Some s' -> (List.length l + weight s' <= weight s)%nat.
Proof.
  intros l. induction l as [|a l IH]; intros s s' HC HF H; cbn [acts] in H; [injection H as <-; cbn; lia|].
  destruct (do a s) as [t|] eqn:Ea; [|discriminate]. apply Forall_cons_iff in HF. destruct HF as [F1 F2].
  pose proof (weight_step s a t HC F1 Ea). specialize (IH t s' (counts_step s a t HC Ea) F2 H). cbn [List.length]. lia.
Qed.
Lemma told_acts : forall l s s', Told s -> acts l s = Some s' -> Told s'.
Proof.
  intros l. induction l as [|a l IH]; intros s s' HT H; cbn [acts] in H; [injection H as <-; exact HT|].
  destruct (do a s) as [t|] eqn:Ea; [|discriminate]. exact (IH t s' (told_step s a t HT Ea) H).
Qed.
Lemma counts_acts : forall l s s', Counts s -> acts l s = Some s' -> Counts s'.
Proof.
  intros l. induction l as [|a l IH]; intros s s' HT H; cbn [acts] in H; [injection H as <-; exact HT|].
  destruct (do a s) as [t|] eqn:Ea; [|discriminate]. exact (IH t s' (counts_step s a t HT Ea) H).
Qed.
Theorem returns : forall ds stops s, Possible ds stops s -> Told s ->
  exists bound, forall l s', Forall NotClient l -> acts l s = Some s' ->
    (List.length l <= bound)%nat /\ ((forall a t, NotClient a -> do a s' = Some t -> False) -> y_main s' = MRet).
Proof.
  intros ds stops s HP HT. pose proof (counts_possible ds stops s HP) as HC. exists (weight s). intros l s' HF H. split.
  - pose proof (weight_acts l s s' HC HF H). lia.
  - intros HN. assert (D : y_main s' = MRet \/ y_main s' <> MRet) by (destruct (y_main s'); auto; right; discriminate). destruct D as [D|D]; [exact D|].
    destruct (progress s' (counts_acts l s s' HC H) (told_acts l s s' HT H) D) as (a & t & Ha & Ht). exfalso. exact (HN a t Ha Ht).
Qed.

(* once the listeners are closed nobody can connect any more *)
Definition AllClosed (s : sys) : Prop := (exists i, y_main s = MStopWait i) \/ y_main s = MHook \/ y_main s = MRet.
Lemma all_closed_told : forall s, AllClosed s -> Told s.
Proof. intros s [(i & H)|[H|H]]; unfold Told; rewrite H; split; discriminate. Qed.
Lemma all_closed_step : forall s a s', AllClosed s -> do a s = Some s' -> AllClosed s'.
Proof.
  intros s a s' HA H. pose proof (do_main s a s' H) as HM. unfold AllClosed.
  destruct HM as [a N1 N2 N3|j Hj Lj|j Hj Lj|j Hj _|j Hj _|j u Hj _ _|j Hj _|j Hj _|j Hj _|j u Hj _ _|j Hj _|Hj|j u e Hj _ _|j e Hj _]; auto; try (left; eexists; reflexivity);
    destruct HA as [(i & HA)|[HA|HA]]; congruence.
Qed.
Lemma no_client : forall s i, Counts s -> AllClosed s -> do (AClient i) s = None.
Proof.
  intros s i HC HA. cbn [do]. destruct (nth_error (y_srvs s) i) as [v|] eqn:E; [|reflexivity]. destruct (v_loop v); try reflexivity.
  destruct (HC i v E) as (_ & B & _). rewrite B; [reflexivity|]. destruct HA as [(j & HA)|[HA|HA]]; rewrite HA; exact I.
Qed.
Lemma closed_acts : forall l s s', Counts s -> AllClosed s -> acts l s = Some s' -> Forall NotClient l.
Proof.
  intros l. induction l as [|a l IH]; intros s s' HC HA H; cbn [acts] in H; [constructor|].
  destruct (do a s) as [t|] eqn:Ea; [|discriminate]. constructor.
  - intros i ->. rewrite (no_client s i HC HA) in Ea. discriminate.
  - exact (IH t s' (counts_step s a t HC Ea) (all_closed_step s a t HA Ea) H).
Qed.
Theorem returns_closed : forall ds stops s, Possible ds stops s -> AllClosed s ->
  exists bound, forall l s', acts l s = Some s' -> (List.length l <= bound)%nat /\ ((forall a, do a s' = None) -> y_main s' = MRet).
Proof.
  intros ds stops s HP HA. destruct (returns ds stops s HP (all_closed_told s HA)) as (b & Hb). exists b. intros l s' H.
  destruct (Hb l s' (closed_acts l s s' (counts_possible ds stops s HP) HA H) H) as [B1 B2]. split; [exact B1|]. intros N. apply B2. intros a t _ E. rewrite N in E. discriminate.
Qed.

(* ---- Pause ---- *)
Definition IsPaused (v : srv) : Prop := v_shutdown v = true /\ (v_deadliner v = true -> v_deadline v = true).
Lemma vstep_paused : forall s k v a v', vstep s k v a v' -> IsPaused v -> IsPaused v'.
Proof.
  intros s k v a v' H [P1 P2]. destruct H as [a|Hm|Hm|Hm|Hl|Hl|Hl|e Hl|Hl _ _|Hl|h Hh|e Hm Hl]; unfold IsPaused; fields_in; auto.
  split; [reflexivity|]. intros D. rewrite D. reflexivity.
Qed.
Lemma vstep_deadliner : forall s k v a v', vstep s k v a v' -> v_deadliner v' = v_deadliner v.
Proof. intros s k v a v' H. destruct H as [a|Hm|Hm|Hm|Hl|Hl|Hl|e Hl|Hl _ _|Hl|h Hh|e Hm Hl]; reflexivity. Qed.
Definition PauseOk (s : sys) : Prop := forall k v, Paused s k -> nth_error (y_srvs s) k = Some v -> IsPaused v.
Lemma pause_main : forall s a m s' k, mstep s a m -> m = y_main s' -> (k < List.length (y_srvs s))%nat -> Paused s' k -> Paused s k \/ (y_main s = MPause k /\ a = AMain).
Proof.
  intros s a m s' k H E L HP. unfold Paused in *. rewrite <- E in HP.
  destruct H as [a N1 N2 N3|j Hj Lj|j Hj Lj|j Hj Lj|j Hj Lj|j u Hj _ _|j Hj _|j Hj _|j Hj _|j u Hj _ _|j Hj _|Hj|j u e Hj _ _|j e Hj _].
  1: left; exact HP.
  all: destruct HP as [(i & HP & HL)|(i & HP)]; try discriminate; try (destruct e; discriminate).
  - injection HP as <-. destruct (Nat.eq_dec k j) as [->|N]; [right; auto|]. left. left. exists j. split; [exact Hj|lia].
  - left. left. exists j. split; [exact Hj|lia].
  - left. right. exists j. exact Hj.
  - destruct e; try discriminate. cbn in HP. injection HP as <-. lia.
  - destruct e; try discriminate. cbn in HP. injection HP as <-. lia.
Qed.
Lemma pause_step : forall s a s', PauseOk s -> do a s = Some s' -> PauseOk s'.
Proof.
  intros s a s' HP H k v' Hk Hv'. destruct (do_srv s a s' k v' H Hv') as (v & Hv & HV).
  assert (L : (k < List.length (y_srvs s))%nat) by (apply nth_error_Some; congruence).
  destruct (pause_main s a (y_main s') s' k (do_main s a s' H) eq_refl L Hk) as [Hk'|[Em ->]].
  - exact (vstep_paused s k v a v' HV (HP k v Hk' Hv)).
  - cbn [do] in H. unfold main_step in H. rewrite Em in H. destruct (Nat.ltb_spec k (List.length (y_srvs s))); [|lia]. injection H as <-.
    cbn [set_main upd_srv y_srvs] in Hv'. rewrite upd_nth, Nat.eqb_refl, Hv in Hv'. cbn [option_map] in Hv'. injection Hv' as <-. split; [reflexivity|]. cbn [set_paused v_deadliner v_deadline]. intros ->. reflexivity.
Qed.
Lemma pause_possible : forall ds stops s, Possible ds stops s -> PauseOk s.
Proof.
  intros ds stops s H. apply (reaches_inv PauseOk) with (s := sys_start ds stops); [exact pause_step|exact H|].
  intros k v [(i & E & _)|(i & E)]; discriminate.
Qed.
(* how many clients a paused server may still accept *)
Definition room (v : srv) : nat := match v_loop v with LAccept => if v_deadliner v then 0 else 1 | _ => 0 end.
Lemma room_vstep : forall s k v a v', Told s -> vstep s k v a v' -> IsPaused v -> (room v' <= room v)%nat.
Proof.
  intros s k v a v' [HT _] H [P1 P2]. destruct H as [a|Hm|Hm|Hm|Hl|Hl|Hl|e Hl|Hl _ Hd|Hl|h Hh|e Hm Hl]; unfold room; fields_in; rewrite ?Hl, ?P1; try lia.
  destruct (y_silent s); lia.
Qed.
Lemma accepted_one : forall k a, a <> AClient k -> accepted k [a] = 0%nat.
Proof. intros k a H. destruct a; try reflexivity. cbn. destruct (Nat.eqb_spec i k) as [->|N]; [congruence|reflexivity]. Qed.
Lemma act_client : forall a k, a = AClient k \/ a <> AClient k.
Proof. intros a k. destruct a; try (right; discriminate). destruct (Nat.eq_dec i k) as [->|N]; [left; reflexivity|right; congruence]. Qed.
Lemma room_step : forall s a s' k v v', Told s -> do a s = Some s' -> nth_error (y_srvs s) k = Some v -> nth_error (y_srvs s') k = Some v' -> IsPaused v ->
  (accepted k [a] + room v' <= room v)%nat.
Proof.
  intros s a s' k v v' HT H Hv Hv' HP. destruct (act_client a k) as [->|N].
  - cbn [do] in H. rewrite Hv in H. destruct (v_loop v) eqn:El; try discriminate. destruct (v_closed v || v_deadline v) eqn:Ed; [discriminate|]. injection H as <-.
    cbn [upd_srv y_srvs] in Hv'. rewrite upd_nth, Nat.eqb_refl, Hv in Hv'. cbn [option_map] in Hv'. injection Hv' as <-.
    cbn [accepted]. rewrite Nat.eqb_refl. unfold room. rewrite El. cbn [set_loop v_loop]. destruct (v_deadliner v) eqn:D; [|lia].
    apply orb_false_iff in Ed. destruct Ed as [_ Ed]. destruct HP as [_ P2]. rewrite (P2 D) in Ed. discriminate.
  - rewrite (accepted_one k a N). destruct (do_srv s a s' k v' H Hv') as (u & Hu & HV). rewrite Hv in Hu. injection Hu as <-. exact (room_vstep s k v a v' HT HV HP).
Qed.
Lemma accepted_cons : forall k a l, accepted k (a :: l) = (accepted k [a] + accepted k l)%nat.
Proof. intros k a l. destruct a; cbn [accepted]; try reflexivity. lia. Qed.
Lemma room_acts : forall l s s' k v, Told s -> acts l s = Some s' -> nth_error (y_srvs s) k = Some v -> IsPaused v -> (accepted k l <= room v)%nat.
Proof.
  intros l. induction l as [|a l IH]; intros s s' k v HT H Hv HP; [cbn; lia|]. cbn [acts] in H. destruct (do a s) as [t|] eqn:Ea; [|discriminate].
  destruct (nth_error (y_srvs t) k) as [u|] eqn:Eu.
  - pose proof (room_step s a t k v u HT Ea Hv Eu HP) as R. destruct (do_srv s a t k u Ea Eu) as (v0 & Hv0 & HV). rewrite Hv in Hv0. injection Hv0 as <-.
    specialize (IH t s' k u (told_step s a t HT Ea) H Eu (vstep_paused s k v a u HV HP)). rewrite accepted_cons. lia.
  - exfalso. apply nth_error_None in Eu. rewrite (do_length s a t Ea) in Eu. assert (k < List.length (y_srvs s))%nat by (apply nth_error_Some; congruence). lia.
Qed.
Theorem paused_accepts : forall ds stops s k v l s', Possible ds stops s -> Paused s k -> nth_error (y_srvs s) k = Some v -> acts l s = Some s' ->
  (accepted k l <= if v_deadliner v then 0 else 1)%nat.
Proof.
  intros ds stops s k v l s' HP Hk Hv H. assert (HT : Told s) by (destruct Hk as [(i & E & _)|(i & E)]; unfold Told; rewrite E; split; discriminate).
  pose proof (room_acts l s s' k v HT H Hv (pause_possible ds stops s HP k v Hk Hv)) as R. unfold room in R. destruct (v_loop v); destruct (v_deadliner v); lia.
Qed.
