(* Lemmas on https.go. *)
From Verif Require Import M_Base M_Path M_Request M_Address M_App M_Https S_Https L_Base.

Lemma seteq : forall f p n, set_node f p n p = Some n.
Proof. intros. unfold set_node. rewrite beqb_refl. reflexivity. Qed.
Lemma setne : forall f p n q, q <> p -> set_node f p n q = f q.
Proof. intros. unfold set_node. destruct (beqb q p) eqn:E; [|reflexivity]. apply beqb_eq in E. contradiction. Qed.

Lemma is_file_spec : forall n, is_file n = true <-> exists c, n = Some (NFile c).
Proof.
  intros [[|c]|]; cbn; split; intros H; try discriminate; try (destruct H; discriminate); eauto.
Qed.

(* the run, step by step: every state that can be left *)
Section Run.
Variables cache cert key : bytes.
Hypothesis D1 : cert <> key.
Hypothesis D2 : forall q, on_the_way q cache -> q <> cert /\ q <> key.
Hypothesis D3 : cert <> [SLASH] /\ key <> [SLASH].

Definition Kept (f g : fs) : Prop := forall q, q <> cert -> q <> key -> g q = f q \/ (f q = None /\ g q = Some NDir /\ (on_the_way q cache \/ q = [SLASH])).

(* what one run leaves: [stage] says how far it came *)
Inductive Left (f g : fs) : option (option (bytes * bytes)) -> Prop :=
| Left_found : g = f -> HasFile f cert -> HasFile f key -> Left f g (Some (Some (cert, key)))
| Left_early o : (o = None \/ o = Some None) -> g cert = f cert -> g key = f key -> Left f g o
| Left_cert o b : (o = None \/ o = Some None) -> (g cert = Some (NFile CEmpty) \/ g cert = Some (NFile (CPart b)) \/ g cert = Some (NFile (CWhole b))) ->
    (exists c, b = BCert c) -> g key = f key -> Left f g o
| Left_key o c : (o = None \/ o = Some None) -> g cert = Some (NFile (CWhole (BCert c))) ->
    (g key = Some (NFile CEmpty) \/ g key = Some (NFile (CPart (BKey (c_key c)))) \/ (o = None /\ g key = Some (NFile (CWhole (BKey (c_key c)))))) -> Left f g o
| Left_done c now : Pair g cert key c -> c_from c = now -> c_until c = (now + ten_years)%Z -> c_names c = [] -> c_serial c = 1%Z ->
    Left f g (Some (Some (cert, key))).

Lemma kept_refl : forall f, Kept f f.
Proof. intros f q _ _. left. reflexivity. Qed.
Lemma kept_set : forall f g p n, Kept f g -> p = cert \/ p = key -> Kept f (set_node g p n).
Proof. intros f g p n H Hp q Hc Hk. rewrite setne; [apply H; assumption|]. destruct Hp; subst; assumption. Qed.
Lemma kept_made : forall f g, MadeDirs f cache g -> Kept f g.
Proof. intros f g H q _ _. apply H. Qed.
Lemma made_same : forall f g, MadeDirs f cache g -> g cert = f cert /\ g key = f key.
Proof.
  intros f g H. destruct D3 as [S1 S2]. split.
  - destruct (H cert) as [E|(_ & _ & [E|E])]; [exact E| |contradiction]. destruct (D2 _ E) as [N _]. now contradict N.
  - destruct (H key) as [E|(_ & _ & [E|E])]; [exact E| |contradiction]. destruct (D2 _ E) as [_ N]. now contradict N.
Qed.

Ltac run := match goal with R : Runs _ _ _ _ |- _ => inversion R; subst; clear R end; try match goal with X : Runs _ _ _ _ |- _ => rename X into RR end; try match goal with X : MadeDirs _ _ _ |- _ => rename X into MD end.
Ltac simp := match goal with R : Runs _ _ _ _ |- _ => cbv beta iota delta [negb] in R end.

Lemma after_key : forall f h g o c, Kept f h -> h cert = Some (NFile (CWhole (BCert c))) -> h key = Some (NFile CEmpty) ->
  c_until c = (c_from c + ten_years)%Z -> c_names c = [] -> c_serial c = 1%Z ->
  Runs h (FMake (fun ok => if negb ok then FRet None else FWrite key (BKey (c_key c)) (fun ok => if negb ok then FRet None else FRet (Some (cert, key))))) g o ->
  Kept f g /\ Left f g o.
Proof.
  intros f h g o c K Hc Hk Hu Hn Hs R. run.
  - split; [exact K|]. eapply Left_key; eauto.
  - simp. run.
    + split; [exact K|]. eapply Left_key; eauto.
    + simp. run.
      * split; [apply kept_set; auto|]. eapply Left_key; eauto; [rewrite setne by auto; exact Hc|]. right. right. split; [reflexivity|]. rewrite seteq. unfold written. rewrite Hk. reflexivity.
      * split; [apply kept_set; auto|]. apply (Left_done f _ c (c_from c)); auto. split; [rewrite setne by auto; exact Hc|]. rewrite seteq. unfold written. rewrite Hk. reflexivity.
    + simp. run.
      * split; [apply kept_set; auto|]. eapply Left_key; eauto; [rewrite setne by auto; exact Hc|]. right. left. rewrite seteq. reflexivity.
      * split; [apply kept_set; auto|]. eapply Left_key; eauto; [rewrite setne by auto; exact Hc|]. right. left. rewrite seteq. reflexivity.
    + simp. run; (split; [exact K|]; eapply Left_key; eauto).
    + split; [apply kept_set; auto|]. eapply Left_key; eauto; [rewrite setne by auto; exact Hc|]. right. left. rewrite seteq. reflexivity.
  - simp. run; (split; [exact K|]; eapply Left_key; eauto).
Qed.

Definition gen_rest2 : bool -> fprog (option (bytes * bytes)) := fun ok => if negb ok then FRet None else
  FGenKey (fun priv => match priv with None => FRet None | Some priv =>
  FNow (fun now => FMake (fun ok => if negb ok then FRet None else FCreate cert (fun ok => if negb ok then FRet None else
  FWrite cert (BCert (Cert priv now (now + ten_years) [] 1)) (fun ok => if negb ok then FRet None else
  FCreate key (fun ok => if negb ok then FRet None else FMake (fun ok => if negb ok then FRet None else
  FWrite key (BKey priv) (fun ok => if negb ok then FRet None else FRet (Some (cert, key))))))))) end).
Definition gen_rest1 : bool -> fprog (option (bytes * bytes)) := fun ok => if ok then FRet (Some (cert, key)) else mkdir_if_not_exists cache gen_rest2.
Lemma generate_eq : generate cache cert key = FStat cert (fun n => if is_file n then FStat key (fun n' => gen_rest1 (is_file n')) else gen_rest1 false).
Proof. reflexivity. Qed.
Lemma run_left : forall f g o, Runs f (generate cache cert key) g o -> Kept f g /\ Left f g o.
Proof.
  intros f g o R. rewrite generate_eq in R.
  assert (C : (Kept f g /\ Left f g o) \/ Runs f (gen_rest1 false) g o).
  { run.
    - left. split; [apply kept_refl|]. apply Left_early; auto.
    - cbn beta in RR. destruct (is_file (f cert)) eqn:E1; [|right; exact RR]. run.
      + left. split; [apply kept_refl|]. apply Left_early; auto.
      + cbn beta in RR. destruct (is_file (f key)) eqn:E2; [|right; exact RR]. left. unfold gen_rest1 in RR. run.
        * split; [apply kept_refl|]. apply Left_early; auto.
        * split; [apply kept_refl|]. apply is_file_spec in E1, E2. apply Left_found; auto.
      + right. exact RR.
    - right. exact RR. }
  destruct C as [C|C]; [exact C|]. clear R. change (gen_rest1 false) with (mkdir_if_not_exists cache gen_rest2) in C. unfold mkdir_if_not_exists in C.
  assert (C2 : (Kept f g /\ Left f g o) \/ exists h, Kept f h /\ h cert = f cert /\ h key = f key /\ Runs h (gen_rest2 true) g o).
  { assert (Mk : Runs f (FMkdirAll cache gen_rest2) g o -> (Kept f g /\ Left f g o) \/ exists h, Kept f h /\ h cert = f cert /\ h key = f key /\ Runs h (gen_rest2 true) g o).
    { intros M. run.
      - left. split; [apply kept_refl|]. apply Left_early; auto.
      - right. exists f'. destruct (made_same _ _ MD). repeat split; auto. apply kept_made. assumption.
      - left. destruct (made_same _ _ MD). unfold gen_rest2 in RR. simp. run.
        + split; [apply kept_made; assumption|]. apply Left_early; auto.
        + split; [apply kept_made; assumption|]. apply Left_early; auto. }
    run.
    - left. split; [apply kept_refl|]. apply Left_early; auto.
    - destruct (f cache) as [[|]|] eqn:E; [|apply Mk; exact RR|apply Mk; exact RR].
      right. exists f. repeat split; auto. apply kept_refl.
    - apply Mk. exact RR. }
  destruct C2 as [C2|(h & K & Ec & Ek & C2)]; [exact C2|]. clear C. unfold gen_rest2 in C2. simp.
  (* key, time and certificate *)
  run; [split; [exact K|]; apply Left_early; auto| |run; (split; [exact K|]; apply Left_early; auto)].
  run; [split; [exact K|]; apply Left_early; auto|].
  run; [split; [exact K|]; apply Left_early; auto| |simp; run; (split; [exact K|]; apply Left_early; auto)].
  simp. set (c := Cert priv t (t + ten_years) [] 1) in *.
  assert (Bc : exists c', BCert c = BCert c') by eauto.
  (* the certificate's file *)
  run; [split; [exact K|]; apply Left_early; auto| |simp; run; (split; [exact K|]; apply Left_early; auto)].
  simp. set (h1 := set_node h cert (NFile CEmpty)) in *.
  assert (K1 : Kept f h1) by (apply kept_set; auto).
  assert (Ec1 : h1 cert = Some (NFile CEmpty)) by apply seteq.
  assert (Ek1 : h1 key = f key) by (unfold h1; rewrite setne by auto; exact Ek).
  run.
  - split; [exact K1|]. apply (Left_cert f _ _ (BCert c)); auto.
  - simp. set (h2 := set_node h1 cert (written (h1 cert) (BCert c))) in *.
    assert (K2 : Kept f h2) by (apply kept_set; auto).
    assert (Ec2 : h2 cert = Some (NFile (CWhole (BCert c)))) by (unfold h2; rewrite seteq; unfold written; rewrite Ec1; reflexivity).
    assert (Ek2 : h2 key = f key) by (unfold h2; rewrite setne by auto; exact Ek1).
    run.
    + split; [exact K2|]. apply (Left_cert f _ _ (BCert c)); auto.
    + simp. apply (after_key f _ g o c) in RR; auto; [apply kept_set; auto|rewrite setne by auto; exact Ec2|apply seteq].
    + simp. run; (split; [exact K2|]; apply (Left_cert f _ _ (BCert c)); auto).
  - simp. run; (split; [apply kept_set; auto|]; apply (Left_cert f _ _ (BCert c)); auto; [right; left; apply seteq|rewrite setne by auto; exact Ek1]).
  - simp. run; (split; [exact K1|]; apply (Left_cert f _ _ (BCert c)); auto).
  - split; [apply kept_set; auto|]. apply (Left_cert f _ _ (BCert c)); auto; [right; left; apply seteq|rewrite setne by auto; exact Ek1].
Qed.

Theorem success : forall f g c k, Runs f (generate cache cert key) g (Some (Some (c, k))) ->
  c = cert /\ k = key /\ ((g = f /\ HasFile f cert /\ HasFile f key) \/
    exists crt, Pair g cert key crt /\ c_until crt = (c_from crt + ten_years)%Z).
Proof.
  intros f g c k R. destruct (run_left _ _ _ R) as [_ L]. inversion L; subst; try (match goal with H : _ \/ _ |- _ => destruct H; discriminate end).
  - split; [reflexivity|]. split; [reflexivity|]. left. auto.
  - split; [reflexivity|]. split; [reflexivity|]. right. eauto.
Qed.

Theorem healthy_success : forall f g c k, Healthy f cert key -> Runs f (generate cache cert key) g (Some (Some (c, k))) ->
  exists crt, Pair g cert key crt.
Proof.
  intros f g c k H R. destruct (success _ _ _ _ R) as (_ & _ & [(E & H1 & H2)|(crt & P & _)]); [subst; apply H; assumption|eauto].
Qed.

Theorem healthy_life : forall os f g, Healthy f cert key -> Life cache cert key f os g -> Forall (fun o => exists p, o = Some (Some p)) os -> os <> [] ->
  exists crt, Pair g cert key crt.
Proof.
  induction os as [|o os IH]; intros f g H L F N; [now contradict N|]. inversion L; subst. inversion F; subst. destruct H2 as [[c k] ->].
  destruct (healthy_success _ _ _ _ H H3) as [crt P]. destruct os as [|o' os'].
  - inversion H5; subst. eauto.
  - apply (IH g0 g); auto; [|discriminate]. intros _ _. eauto.
Qed.

(* what an ended run may leave, if there was no key before *)
Theorem ended : forall f g o, ~ HasFile f key -> Runs f (generate cache cert key) g o ->
  Healthy g cert key \/
  (o = None \/ o = Some None) /\ (exists c, g cert = Some (NFile (CWhole (BCert c)))) /\
    (g key = Some (NFile CEmpty) \/ exists b, g key = Some (NFile (CPart b))).
Proof.
  intros f g o H R. destruct (run_left _ _ _ R) as [_ L].
  assert (NK : g key = f key -> Healthy g cert key). { intros E _ [c Ec]. exfalso. apply H. exists c. congruence. }
  inversion L; subst; auto.
  - destruct H2 as [E|[E|[E1 E2]]].
    + right. split; [assumption|]. split; [eauto|]. auto.
    + right. split; [assumption|]. split; [eauto|]. right. eauto.
    + left. intros _ _. exists c. split; assumption.
  - left. intros _ _. eauto.
Qed.

Theorem untouched : forall f g o q, Runs f (generate cache cert key) g o -> q <> cert -> q <> key ->
  g q = f q \/ (f q = None /\ g q = Some NDir /\ (on_the_way q cache \/ q = [SLASH])).
Proof. intros f g o q R. destruct (run_left _ _ _ R) as [K _]. apply K. Qed.

Lemma pair_loads : forall f c, Pair f cert key c -> load_pair f cert key = Some (c, c_key c).
Proof. intros f c [H1 H2]. unfold load_pair. rewrite H1, H2, N.eqb_refl. reflexivity. Qed.
Lemma loads_pair : forall f c k, load_pair f cert key = Some (c, k) -> Pair f cert key c /\ k = c_key c.
Proof.
  intros f c k. unfold load_pair, Pair. destruct (f cert) as [[|[| |[]|]]|]; try discriminate. destruct (f key) as [[|[| |[]|]]|]; try discriminate.
  destruct (c_key c0 =? k0)%N eqn:E; [|discriminate]. apply N.eqb_eq in E. intros H. injection H as <- <-. subst. auto.
Qed.
End Run.
