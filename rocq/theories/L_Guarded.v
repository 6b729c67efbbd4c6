(* Lemmas: applications behind Recover are ordinary. *)
From Verif Require Import M_Base M_Status M_Method M_KeyValue M_Request M_Client M_Body M_Response M_Serializer M_Suit M_Router M_Middleware M_Bundled
  S_KeyValue S_Body S_Response S_Conn S_Split S_Routes S_Router S_Serve S_Mutators S_Mutated S_Guarded L_Bundled L_Mutated.

Section Guarded.
Variable W : Type.
Notation ops := (list (list nat * rop W)).
Variable fbs : Z.
Lemma behind_may : forall ms (h : handler W), Forall (PassesOn fbs) ms -> MayPanic fbs h -> MayPanic fbs (behind ms h).
Proof. intros ms h H Hh. induction H as [|m ms Hm _ IH]; [exact Hh|]. exact (Hm _ IH). Qed.
Lemma calls_in : forall (os : ops) addr o, In o (calls os addr) -> exists addr', In (addr', o) os.
Proof. intros os addr o H. unfold calls in H. apply in_map_iff in H. destruct H as ([a o'] & <- & H). apply filter_In in H. exists a. apply H. Qed.
Lemma uses_pass : forall (os : ops), (forall addr ms, In (addr, Use ms) os -> Forall (PassesOn fbs) ms) -> forall addr, Forall (PassesOn fbs) (uses os addr).
Proof.
  intros os H addr. unfold uses. apply Forall_flat_map. rewrite Forall_forall. intros o Ho. apply calls_in in Ho. destruct Ho as (a & Ho).
  destruct o; try constructor. eapply H. exact Ho.
Qed.
Lemma chain_pass : forall (os : ops), (forall addr ms, In (addr, Use ms) os -> Forall (PassesOn fbs) ms) -> forall addr pre, Forall (PassesOn fbs) (chain_below os pre addr).
Proof.
  intros os H. induction addr as [|i addr IH]; intros pre; cbn [chain_below]; apply Forall_app; split; try (apply uses_pass; exact H); [constructor|apply IH].
Qed.
Lemma chain_front : forall (os : ops) ms addr, uses os [] = recovering :: ms -> exists rest, chain os addr = recovering :: rest.
Proof. intros os ms addr H. unfold chain. destruct addr; cbn [chain_below]; rewrite H; cbn [app]; eexists; reflexivity. Qed.
Lemma may_405 : MayPanic fbs (@default_method_not_allowed W).
Proof.
  intros w r. unfold default_method_not_allowed, resp_header. change (equal_fold (B "Allow") (B "content-type")) with false.
  change (equal_fold (B "Allow") (B "transfer-encoding")) with false. cbn iota. apply Ta_ret. intros f H. injection H as <-. apply Sd_plain. reflexivity.
Qed.
Lemma may_all : MayPanic fbs (@default_all_errors W).
Proof.
  intros w r. apply Ta_ret. intros f H. injection H as <-. apply Sd_plain. unfold resp_error. destruct (env_error (r_env r)) as [[e| |]|]; reflexivity.
Qed.
Lemma handler_may : forall (os : ops) c, (forall addr h cs, In (addr, OnErrors h cs) os -> MayPanic fbs h) -> forall h, handler_for os c = Some h -> MayPanic fbs h.
Proof.
  intros os c H h. unfold handler_for.
  set (acc := if (c =? AllErrors)%N then Some default_all_errors else if (c =? 405)%N then Some (@default_method_not_allowed W) else None).
  assert (Ha : forall g, acc = Some g -> MayPanic fbs g).
  { intros g. unfold acc. destruct (_ =? AllErrors)%N; [intros E; injection E as <-; apply may_all|]. destruct (_ =? 405)%N; [intros E; injection E as <-; apply may_405|discriminate]. }
  clearbody acc. revert acc Ha H. induction os as [|[ad o] os IH]; intros acc Ha H E; [exact (Ha h E)|]. cbn [fold_left snd] in E.
  eapply IH; [|intros addr g cs Hi; eapply H; right; exact Hi|exact E]. intros g Hg.
  destruct o; try exact (Ha g Hg). destruct (existsb _ _); [injection Hg as <-; eapply H; left; reflexivity|exact (Ha g Hg)].
Qed.
Lemma recover_ord : forall next : handler W, MayPanic fbs next -> forall w r, Ordinary fbs (recovering next w r).
Proof. intros next H. apply recovering_ordinary. exact H. Qed.
Theorem guarded_ordinary : forall os : ops, Guarded fbs os -> OrdinaryApp fbs os.
Proof.
  intros os [G1 G2 G3 G4 (ms & G5)].
  assert (K : forall addr ms' h, Forall (PassesOn fbs) ms' -> MayPanic fbs h -> forall w r, Ordinary fbs (behind (chain os addr ++ ms') h w r)).
  { intros addr ms' h H1 H2. destruct (chain_front os ms addr G5) as (rest & E). pose proof (chain_pass os G4 addr []) as P. fold (chain os addr) in P. rewrite E in *. cbn [app behind fold_right].
    apply recover_ord. inversion P as [|? ? P1 P2]; subst. apply (behind_may (rest ++ ms')); [apply Forall_app; split; assumption|exact H2]. }
  split; [|split].
  - intros p m h H. unfold registered in H. apply in_flat_map in H. destruct H as ([ad o] & H1 & H2). destruct o; cbn [snd In] in H2; try contradiction. destruct H2 as [H2|[]]; injection H2 as <- <- <-.
    destruct (G1 _ _ _ _ _ H1) as [A1 A2]. cbn [fst]. apply K; assumption.
  - intros p h H w r _. unfold caught in H. apply in_flat_map in H. destruct H as ([ad o] & H1 & H2). destruct o; cbn [snd In] in H2; try contradiction. destruct H2 as [H2|[]]; injection H2 as <- <-.
    destruct (G2 _ _ _ _ H1) as [A1 A2]. cbn [fst]. apply K; assumption.
  - intros c _ w r. unfold error_choice. pose proof (uses_pass os G4 []) as P. rewrite G5 in *. cbn [behind fold_right]. apply recover_ord.
    inversion P as [|? ? P1 P2]; subst. apply (behind_may ms); [exact P2|]. destruct (handler_for os c) eqn:E; [eapply handler_may; eassumption|].
    destruct (handler_for os AllErrors) eqn:E'; [eapply handler_may; eassumption|apply may_all].
Qed.
Lemma guarded_settled : forall os : ops, Guarded fbs os -> OrdinaryApp fbs (settled os).
Proof.
  intros os H. apply guarded_ordinary in H. destruct (settled_same W os) as (E1 & E2 & E3). destruct H as (H1 & H2 & H3). split; [|split].
  - rewrite E1. exact H1.
  - rewrite E2. exact H2.
  - intros c Hc. rewrite E3. apply H3. exact Hc.
Qed.
End Guarded.
(* error handlers behind Recover leave the connection alone if they do without it *)
Theorem recover_detached : forall W (next : handler W) w r, Aloof NoAttachment true (next w r) -> Detached (recovering next w r).
Proof.
  intros W next w r H. apply (Dt_try _ NoAttachment); [exact H|apply Dt_ret; intros f E; injection E as <-; reflexivity|]. intros resp w' Hr. apply Dt_ret. exact Hr.
Qed.
