From Verif Require Import M_Base M_Https M_Started S_Https S_Started L_Base L_Https L_Https2.
From Coq Require Import Lia List.
Import ListNotations.

Lemma put_nth {A} : forall (l : list A) i x j, nth_error (put_at l i x) j = if Nat.eqb i j then match nth_error l i with Some _ => Some x | None => None end else nth_error l j.
Proof.
  induction l as [|y l IH]; intros [|i] x [|j]; cbn; try reflexivity.
  - destruct (Nat.eqb i j); reflexivity.
  - apply IH.
Qed.
Lemma put_len {A} : forall (l : list A) i x, List.length (put_at l i x) = List.length l.
Proof. induction l as [|y l IH]; intros [|i] x; cbn; auto. Qed.
Lemma set_same f q n : set_node f q n q = Some n.
Proof. unfold set_node. rewrite beqb_refl. reflexivity. Qed.
Lemma set_other f q n p : p <> q -> set_node f q n p = f p.
Proof. intros N. unfold set_node. destruct (beqb p q) eqn:E; [apply beqb_eq in E; contradiction|reflexivity]. Qed.

(* a process alone, its steps one after the other *)
Fixpoint alone {A} (priv : N) (now : Z) (n : nat) (p : fprog A) (f : fs) : fs * fprog A :=
  match n with O => (f, p) | S n' => let '(g, q) := prim priv now p f in alone priv now n' q g end.
Lemma alone_runs {A} priv now : forall n (p : fprog A) f g a, alone priv now n p f = (g, FRet a) -> Runs f p g (Some a).
Proof.
  induction n as [|n IH]; intros p f g a H; cbn [alone] in H.
  - injection H as <- ->. apply R_ret.
  - destruct p as [x|q k|q k|q k|q b k|k|k|k]; cbn [prim] in H.
    + apply IH in H. exact H.
    + apply R_stat. apply IH. exact H.
    + destruct (f q) as [[|c]|] eqn:E.
      * apply R_mkdir with (f' := set_node f q NDir); [|apply set_same|apply IH; exact H]. intros p. left. destruct (beqb p q) eqn:E1; [apply beqb_eq in E1; subst; rewrite set_same, E; reflexivity|]. unfold set_node. rewrite E1. reflexivity.
      * apply R_mkdir_err with (f' := f); [intros p; left; reflexivity|]. apply IH. exact H.
      * apply R_mkdir with (f' := set_node f q NDir); [|apply set_same|apply IH; exact H]. intros p. destruct (beqb p q) eqn:E1.
        -- apply beqb_eq in E1. subst. right. rewrite set_same. split; [exact E|]. split; [reflexivity|]. left. left. reflexivity.
        -- left. unfold set_node. rewrite E1. reflexivity.
    + destruct (f q) as [[|c]|] eqn:E; [apply R_create_err; apply IH; exact H| |]; (apply R_create; [rewrite E; discriminate|apply IH; exact H]).
    + apply R_write. apply IH. exact H.
    + eapply R_key. apply IH. exact H.
    + eapply R_now. apply IH. exact H.
    + apply R_make. apply IH. exact H.
Qed.

Section Three.
Variables cache cert key : bytes.
Hypothesis D1 : cert <> key.
Hypothesis D2 : cache <> cert.
Hypothesis D3 : cache <> key.
Variable keys : nat -> N.
Variable clock : nat -> Z.

(* the places of generate *)
Definition ok : fprog outcome := FRet (Some (cert, key)).
Definition p11 (k : N) : fprog outcome := FWrite key (BKey k) (fun b => if negb b then FRet None else ok).
Definition p10 k : fprog outcome := FMake (fun b => if negb b then FRet None else p11 k).
Definition p9 k : fprog outcome := FCreate key (fun b => if negb b then FRet None else p10 k).
Definition crt (k : N) (t : Z) : certificate := Cert k t (t + ten_years) [] 1.
Definition p8 k t : fprog outcome := FWrite cert (BCert (crt k t)) (fun b => if negb b then FRet None else p9 k).
Definition p7 k t : fprog outcome := FCreate cert (fun b => if negb b then FRet None else p8 k t).
Definition p6 k t : fprog outcome := FMake (fun b => if negb b then FRet None else p7 k t).
Definition p5 k : fprog outcome := FNow (fun t => p6 k t).
Definition p4 : fprog outcome := FGenKey (fun priv => match priv with None => FRet None | Some k => p5 k end).
Definition body (b : bool) : fprog outcome := if negb b then FRet None else p4.
Definition p3 : fprog outcome := FMkdirAll cache body.
Definition p2 : fprog outcome := FStat cache (fun n => match n with Some NDir => body true | _ => FMkdirAll cache body end).
Definition p1 : fprog outcome := FStat key (fun n => if is_file n then ok else p2).
Definition p0 : fprog outcome := FStat cert (fun n => if is_file n then p1 else p2).
Lemma gen_eq : generate cache cert key = p0.
Proof. reflexivity. Qed.

(* before the certificate's file is emptied *)
Inductive Early (i : nat) : fprog outcome -> Prop :=
| E0 : Early i p0 | E2 : Early i p2 | E3 : Early i p3 | E4 : Early i p4
| E5 : Early i (p5 (keys i)) | E6 : Early i (p6 (keys i) (clock i)) | E7 : Early i (p7 (keys i) (clock i)).

Variable f0 : fs.
Definition both0 : Prop := is_file (f0 cert) = true /\ is_file (f0 key) = true.
Definition someone (log : list fevent) : Prop := exists j, In (EEmptied j cert) log \/ In (EEmptied j key) log.

Inductive Sit (i : nat) (log : list fevent) : fprog outcome -> Prop :=
| S_early p : Early i p -> (forall q, ~ In (EEmptied i q) log) -> Sit i log p
| S_1 : (forall q, ~ In (EEmptied i q) log) -> is_file (f0 cert) = true \/ someone log -> Sit i log p1
| S_8 : In (EEmptied i cert) log -> Sit i log (p8 (keys i) (clock i))
| S_9 : In (EEmptied i cert) log -> In (EWrote i cert) log -> Sit i log (p9 (keys i))
| S_10 : In (EEmptied i cert) log -> In (EWrote i cert) log -> Sit i log (p10 (keys i))
| S_11 : In (EEmptied i cert) log -> In (EWrote i cert) log -> Sit i log (p11 (keys i))
| S_done : In (EWrote i cert) log -> In (EWrote i key) log -> Sit i log ok
| S_found : (forall q, ~ In (EEmptied i q) log) -> both0 \/ someone log -> Sit i log ok.

Definition block_of (q : bytes) (i : nat) : block := if beqb q cert then BCert (crt (keys i) (clock i)) else BKey (keys i).
Definition replay1 (q : bytes) (n : option node) (e : fevent) : option node :=
  match e with
  | EEmptied _ _ => Some (NFile CEmpty)
  | EWrote i _ => Some (written n (block_of q i))
  end.
Definition replay (q : bytes) (log : list fevent) (n : option node) : option node := fold_left (replay1 q) (filter (about q) log) n.

Record Inv (s : procs) : Prop := {
  i_sit : forall i p, nth_error (pr_progs s) i = Some p -> Sit i (pr_log s) p;
  i_cert : pr_files s cert = replay cert (pr_log s) (f0 cert);
  i_key : pr_files s key = replay key (pr_log s) (f0 key);
  i_cache : forall c, pr_files s cache <> Some (NFile c);
  i_dirs : pr_files s cert <> Some NDir /\ pr_files s key <> Some NDir;
  i_made : (is_file (pr_files s cert) = true -> is_file (f0 cert) = true \/ someone (pr_log s)) /\
           (is_file (pr_files s key) = true -> is_file (f0 key) = true \/ someone (pr_log s));
  i_who : forall i q, In (EEmptied i q) (pr_log s) -> i < List.length (pr_progs s);
  i_only : forall e, In e (pr_log s) -> exists i, e = EEmptied i cert \/ e = EEmptied i key \/ e = EWrote i cert \/ e = EWrote i key
}.

Lemma sit_mono i log e p : Sit i log p -> (forall q, e <> EEmptied i q) -> Sit i (log ++ [e]) p.
Proof.
  intros H N.
  assert (Q : (forall q, ~ In (EEmptied i q) log) -> forall q, ~ In (EEmptied i q) (log ++ [e])).
  { intros Q q I. apply in_app_iff in I. destruct I as [I|[I|[]]]; [exact (Q q I)|]. exact (N q I). }
  assert (W : forall x, In x log -> In x (log ++ [e])) by (intros x I; apply in_app_iff; left; exact I).
  destruct H as [p E F|F [B|[j J]]|H|H H'|H H'|H H'|H1 H2|F [B|[j J]]].
  - apply S_early; auto.
  - apply S_1; auto.
  - apply S_1; [auto|]. right. exists j. destruct J; auto.
  - apply S_8; auto.
  - apply S_9; auto.
  - apply S_10; auto.
  - apply S_11; auto.
  - apply S_done; auto.
  - apply S_found; auto.
  - apply S_found; [auto|]. right. exists j. destruct J; auto.
Qed.
Lemma replay_app q log e n : replay q (log ++ [e]) n = if about q e then replay1 q (replay q log n) e else replay q log n.
Proof. unfold replay. rewrite filter_app, fold_left_app. cbn [filter]. destruct (about q e); reflexivity. Qed.
Lemma about_same_e i q : about q (EEmptied i q) = true. Proof. cbn. apply beqb_refl. Qed.
Lemma about_same_w i q : about q (EWrote i q) = true. Proof. cbn. apply beqb_refl. Qed.
Lemma about_other_e i p q : p <> q -> about q (EEmptied i p) = false.
Proof. intros N. cbn. destruct (beqb p q) eqn:E; [apply beqb_eq in E; contradiction|reflexivity]. Qed.
Lemma about_other_w i p q : p <> q -> about q (EWrote i p) = false.
Proof. intros N. cbn. destruct (beqb p q) eqn:E; [apply beqb_eq in E; contradiction|reflexivity]. Qed.
Lemma block_cert i : block_of cert i = BCert (crt (keys i) (clock i)).
Proof. unfold block_of. rewrite beqb_refl. reflexivity. Qed.
Lemma block_key i : block_of key i = BKey (keys i).
Proof. unfold block_of. destruct (beqb key cert) eqn:E; [apply beqb_eq in E; symmetry in E; contradiction|reflexivity]. Qed.

(* a step that changes no file and writes nothing down *)
Lemma quiet s i p p' : Inv s -> nth_error (pr_progs s) i = Some p -> Sit i (pr_log s) p' ->
  Inv (Procs (pr_files s) (put_at (pr_progs s) i p') (pr_log s ++ [])).
Proof.
  intros V N S. rewrite app_nil_r. destruct V. constructor; cbn [pr_progs pr_files pr_log]; auto.
  - intros j q. rewrite put_nth, N. destruct (Nat.eqb_spec i j) as [<-|]; [intros [= <-]; exact S|auto].
  - intros j q I. rewrite put_len. eauto.
Qed.
Lemma bound_of {A} (l : list A) i x : nth_error l i = Some x -> i < List.length l.
Proof. intros H. apply nth_error_Some. rewrite H. discriminate. Qed.


Lemma someone_mono log e : someone log -> someone (log ++ [e]).
Proof. intros [j [J|J]]; exists j; [left|right]; apply in_app_iff; left; exact J. Qed.
Lemma written_file n b : exists c, written n b = NFile c.
Proof. unfold written. destruct n as [[|[]]|]; eexists; reflexivity. Qed.

(* a file is emptied *)
Lemma empties s i q p p' : (q = cert \/ q = key) -> Inv s -> nth_error (pr_progs s) i = Some p -> Sit i (pr_log s ++ [EEmptied i q]) p' ->
  Inv (Procs (set_node (pr_files s) q (NFile CEmpty)) (put_at (pr_progs s) i p') (pr_log s ++ [EEmptied i q])).
Proof.
  intros Q V N S. pose proof (bound_of _ _ _ N) as B. destruct V as [V1 V2 V3 V4 [V5 V5'] [V6 V6'] V7 V8].
  assert (SO : someone (pr_log s ++ [EEmptied i q])).
  { exists i. destruct Q as [->| ->]; [left|right]; apply in_app_iff; right; left; reflexivity. }
  constructor; cbn [pr_progs pr_files pr_log].
  - intros j r. rewrite put_nth, N. destruct (Nat.eqb_spec i j) as [<-|Nj]; [intros [= <-]; exact S|]. intros H. apply sit_mono; [auto|]. intros q0 [= E _]. congruence.
  - rewrite replay_app. destruct Q as [->| ->]; [rewrite about_same_e, set_same; reflexivity|]. rewrite about_other_e, set_other by congruence. exact V2.
  - rewrite replay_app. destruct Q as [->| ->]; [rewrite about_other_e, set_other by congruence; exact V3|]. rewrite about_same_e, set_same. reflexivity.
  - intros c. rewrite set_other; [auto|]. destruct Q as [->| ->]; congruence.
  - split; unfold set_node; [destruct (beqb cert q)|destruct (beqb key q)]; (discriminate || assumption).
  - split; intros _; right; exact SO.
  - intros j r I. rewrite put_len. apply in_app_iff in I. destruct I as [I|[[= <- _]|[]]]; [eauto|exact B].
  - intros e I. apply in_app_iff in I. destruct I as [I|[<-|[]]]; [auto|]. exists i. destruct Q as [->| ->]; auto.
Qed.
Lemma writes s i q b p p' : (q = cert \/ q = key) -> b = block_of q i -> Inv s -> nth_error (pr_progs s) i = Some p -> Sit i (pr_log s ++ [EWrote i q]) p' ->
  someone (pr_log s) ->
  Inv (Procs (set_node (pr_files s) q (written (pr_files s q) b)) (put_at (pr_progs s) i p') (pr_log s ++ [EWrote i q])).
Proof.
  intros Q -> V N S SO0. pose proof (bound_of _ _ _ N) as B. destruct V as [V1 V2 V3 V4 [V5 V5'] [V6 V6'] V7 V8].
  assert (SO : someone (pr_log s ++ [EWrote i q])) by (apply someone_mono; exact SO0).
  constructor; cbn [pr_progs pr_files pr_log].
  - intros j r. rewrite put_nth, N. destruct (Nat.eqb_spec i j) as [<-|Nj]; [intros [= <-]; exact S|]. intros H. apply sit_mono; [auto|]. intros q0. discriminate.
  - rewrite replay_app. destruct Q as [->| ->]; [rewrite about_same_w, set_same, V2; reflexivity|]. rewrite about_other_w, set_other by congruence. exact V2.
  - rewrite replay_app. destruct Q as [->| ->]; [rewrite about_other_w, set_other by congruence; exact V3|]. rewrite about_same_w, set_same, V3. reflexivity.
  - intros c. rewrite set_other; [auto|]. destruct Q as [->| ->]; congruence.
  - destruct (written_file (pr_files s q) (block_of q i)) as [c ->].
    split; unfold set_node; [destruct (beqb cert q)|destruct (beqb key q)]; (discriminate || assumption).
  - split; intros _; right; exact SO.
  - intros j r I. rewrite put_len. apply in_app_iff in I. destruct I as [I|[[=]|[]]]; eauto.
  - intros e I. apply in_app_iff in I. destruct I as [I|[<-|[]]]; [auto|]. exists i. destruct Q as [->| ->]; auto.
Qed.

Lemma turn_inv i s : Inv s -> Inv (turn keys clock i s).
Proof.
  intros V. unfold turn. destruct (nth_error (pr_progs s) i) as [p|] eqn:N; [|exact V].
  pose proof (i_sit s V i p N) as S. destruct (i_dirs s V) as [DC DK]. destruct (i_made s V) as [MC MK].
  destruct S as [p E F|F X|W|W0 W|W0 W|W0 W|W1 W2|F X].
  - destruct E; cbn [prim note p0 p2 p3 p4 p5 p6 p7 negb].
    + apply quiet with (p := p0); auto. destruct (is_file (pr_files s cert)) eqn:K; [apply S_1; auto|apply S_early; auto; constructor].
    + apply quiet with (p := p2); auto. pose proof (i_cache s V) as C. destruct (pr_files s cache) as [[|c]|]; [|exfalso; exact (C c eq_refl)|]; apply S_early; auto; constructor.
    + pose proof (i_cache s V) as C.
      assert (Q : Inv (Procs (set_node (pr_files s) cache NDir) (put_at (pr_progs s) i p4) (pr_log s ++ []))).
      { pose proof (quiet s i p3 p4 V N (S_early i _ p4 (E4 i) F)) as [Q1 Q2 Q3 Q4 Q5 Q6 Q7 Q8]. cbn [pr_files pr_progs pr_log] in *.
        constructor; cbn [pr_files pr_progs pr_log]; auto.
        - rewrite set_other by congruence. exact Q2.
        - rewrite set_other by congruence. exact Q3.
        - intros c. rewrite set_same. discriminate.
        - rewrite !set_other by congruence. exact Q5.
        - rewrite !set_other by congruence. exact Q6. }
      destruct (pr_files s cache) as [[|c]|]; [exact Q|exfalso; exact (C c eq_refl)|exact Q].
    + apply quiet with (p := p4); auto. apply S_early; auto. constructor.
    + apply quiet with (p := p5 (keys i)); auto. apply S_early; auto. constructor.
    + apply quiet with (p := p6 (keys i) (clock i)); auto. apply S_early; auto. constructor.
    + assert (Q : Inv (Procs (set_node (pr_files s) cert (NFile CEmpty)) (put_at (pr_progs s) i (p8 (keys i) (clock i))) (pr_log s ++ [EEmptied i cert]))).
      { apply empties with (p := p7 (keys i) (clock i)); auto. apply S_8. apply in_app_iff. right. left. reflexivity. }
      destruct (pr_files s cert) as [[|c]|]; [exfalso; apply DC; reflexivity|exact Q|exact Q].
  - cbn [prim note p1]. apply quiet with (p := p1); auto. destruct (is_file (pr_files s key)) eqn:K; [|apply S_early; auto; constructor].
    apply S_found; [exact F|]. destruct X as [X|X]; [|right; exact X]. destruct (MK eq_refl) as [Y|Y]; [left; split; assumption|right; exact Y].
  - cbn [prim note p8 negb]. apply writes with (p := p8 (keys i) (clock i)); auto.
    + symmetry. apply block_cert.
    + apply S_9; apply in_app_iff; [left; exact W|right; left; reflexivity].
    + exists i. left. exact W.
  - cbn [prim note p9 negb].
    assert (Q : Inv (Procs (set_node (pr_files s) key (NFile CEmpty)) (put_at (pr_progs s) i (p10 (keys i))) (pr_log s ++ [EEmptied i key]))).
    { apply empties with (p := p9 (keys i)); auto. apply S_10; apply in_app_iff; left; assumption. }
    destruct (pr_files s key) as [[|c]|]; [exfalso; apply DK; reflexivity|exact Q|exact Q].
  - cbn [prim note p10 negb]. apply quiet with (p := p10 (keys i)); auto. apply S_11; assumption.
  - cbn [prim note p11 negb]. apply writes with (p := p11 (keys i)); auto.
    + symmetry. apply block_key.
    + apply S_done; apply in_app_iff; [left; exact W|right; left; reflexivity].
    + exists i. left. exact W0.
  - cbn [prim note ok]. apply quiet with (p := ok); auto. apply S_done; assumption.
  - cbn [prim note ok]. apply quiet with (p := ok); auto. apply S_found; assumption.
Qed.

Lemma turns_inv l : forall s, Inv s -> Inv (turns keys clock l s).
Proof. induction l as [|i l IH]; intros s V; cbn; [exact V|]. apply IH, turn_inv, V. Qed.

Lemma repeat_nth {A} (x : A) n i y : nth_error (repeat x n) i = Some y -> y = x.
Proof. intros H. apply nth_error_In in H. eapply repeat_spec; eauto. Qed.

Lemma start_inv n : (forall c, f0 cache <> Some (NFile c)) -> f0 cert <> Some NDir -> f0 key <> Some NDir -> Inv (started cache cert key n f0).
Proof.
  intros H1 H2 H3. constructor; cbn [started pr_progs pr_files pr_log]; auto; try (intros; contradiction).
  intros i p H. apply repeat_nth in H. subst. rewrite gen_eq. apply S_early; [constructor|intros q []].
Qed.

(* who wrote last, when files are written one by one *)
Lemma inturn_last : forall l q, InTurn l -> (forall e, In e l -> about q e = true) -> l <> [] ->
  exists b i, l = b ++ [EEmptied i q; EWrote i q].
Proof.
  intros l q H. induction H as [|i p l H IH]; intros A Ne; [contradiction|].
  assert (p = q). { specialize (A (EEmptied i p) (or_introl eq_refl)). cbn in A. apply beqb_eq in A. exact A. } subst p.
  destruct l as [|e l]; [exists [], i; reflexivity|].
  destruct IH as (b & j & E); [intros x I; apply A; right; right; exact I|discriminate|]. rewrite E. exists (EEmptied i q :: EWrote i q :: b), j. reflexivity.
Qed.
Lemma split_filter {A} (P : A -> bool) : forall l b x, filter P l = b ++ [x] -> exists l1 l2, l = l1 ++ x :: l2 /\ filter P l2 = [].
Proof.
  induction l as [|y l IH]; intros b x H; [destruct b; discriminate|]. cbn [filter] in H. destruct (P y).
  - destruct b as [|z b]; cbn in H; injection H as -> H.
    + exists [], l. split; [reflexivity|exact H].
    + destruct (IH b x H) as (l1 & l2 & -> & E). exists (z :: l1), l2. split; [reflexivity|exact E].
  - destruct (IH b x H) as (l1 & l2 & -> & E). exists (y :: l1), l2. split; [reflexivity|exact E].
Qed.
Lemma last_writer s q : (q = cert \/ q = key) -> Inv s -> OneByOne (pr_log s) q -> (exists i, In (EWrote i q) (pr_log s)) ->
  exists i, LastToWrite (pr_log s) q i /\ replay q (pr_log s) (f0 q) = Some (NFile (CWhole (block_of q i))).
Proof.
  intros Q V O [j J].
  destruct (inturn_last _ q O) as (b & i & E).
  - intros e I. apply filter_In in I. apply I.
  - intros H. assert (I : In (EWrote j q) (filter (about q) (pr_log s))) by (apply filter_In; split; [exact J|apply about_same_w]). rewrite H in I. exact I.
  - exists i. split.
    + change [EEmptied i q; EWrote i q] with ([EEmptied i q] ++ [EWrote i q]) in E. rewrite app_assoc in E.
      destruct (split_filter _ _ _ _ E) as (l1 & l2 & E1 & E2). exists l1, l2. split; [exact E1|].
      intros k I. assert (I2 : In (EWrote k q) (filter (about q) l2)) by (apply filter_In; split; [exact I|apply about_same_w]). rewrite E2 in I2. exact I2.
    + unfold replay. rewrite E, fold_left_app. reflexivity.
Qed.

Lemma all_written s : Inv s -> ~ both0 -> (forall p, In p (pr_progs s) -> exists o, p = FRet o) -> pr_progs s <> [] ->
  (forall p, In p (pr_progs s) -> p = ok) /\ (exists i, In (EWrote i cert) (pr_log s)) /\ (exists i, In (EWrote i key) (pr_log s)).
Proof.
  intros V NB AD NE.
  assert (OK : forall i p, nth_error (pr_progs s) i = Some p -> p = ok /\ (In (EWrote i cert) (pr_log s) /\ In (EWrote i key) (pr_log s) \/ (forall q, ~ In (EEmptied i q) (pr_log s)) /\ someone (pr_log s))).
  { intros i p H. destruct (AD p (nth_error_In _ _ H)) as [o ->]. pose proof (i_sit s V i _ H) as S. inversion S; subst.
    - match goal with E : Early _ _ |- _ => inversion E end.
    - split; [reflexivity|]. left. auto.
    - split; [reflexivity|]. right. split; [assumption|]. match goal with X : both0 \/ _ |- _ => destruct X; [contradiction|assumption] end. }
  split; [intros p I; apply In_nth_error in I; destruct I as [i I]; apply (OK i p I)|].
  assert (E : exists i, In (EWrote i cert) (pr_log s) /\ In (EWrote i key) (pr_log s)).
  { destruct (pr_progs s) as [|p l] eqn:P; [contradiction|]. destruct (OK 0 p eq_refl) as [_ [X|[_ [j J]]]]; [exists 0; exact X|].
    assert (B : j < List.length (pr_progs s)) by (destruct J as [J|J]; exact (i_who s V j _ J)).
    apply nth_error_Some in B. rewrite P in B. destruct (nth_error (p :: l) j) as [r|] eqn:R; [|contradiction].
    destruct (OK j r R) as [_ [X|[X _]]]; [exists j; exact X|]. exfalso. destruct J as [J|J]; exact (X _ J). }
  destruct E as (i & E1 & E2). split; exists i; assumption.
Qed.
End Three.

Section Exact.
Variables cache cert key : bytes.
Hypothesis D1 : cert <> key.
Hypothesis D2 : cache <> cert.
Hypothesis D3 : cache <> key.

Theorem many_exact : forall keys clock n sched f, (forall c, f cache <> Some (NFile c)) -> f cert <> Some NDir -> f key <> Some NDir ->
  ~ (HasFile f cert /\ HasFile f key) -> n > 0 ->
  let s := turns keys clock sched (started cache cert key n f) in
  (forall p, In p (pr_progs s) -> exists o, p = FRet o) -> OneByOne (pr_log s) cert -> OneByOne (pr_log s) key ->
  AllDone s (Some (cert, key)) /\
  exists i j, LastToWrite (pr_log s) cert i /\ LastToWrite (pr_log s) key j /\ (load_pair (pr_files s) cert key <> None <-> keys i = keys j).
Proof.
  intros keys clock n sched f H1 H2 H3 NB P s AD OC OK.
  assert (V : Inv cache cert key keys clock f s) by (apply turns_inv; auto; apply start_inv; auto).
  assert (LEN : List.length (pr_progs s) = n).
  { unfold s. clear. generalize (repeat_length (generate cache cert key) n). change (repeat (generate cache cert key) n) with (pr_progs (started cache cert key n f)).
    generalize (started cache cert key n f). induction sched as [|i l IH]; intros s H; cbn; [exact H|]. apply IH. unfold turn. destruct (nth_error (pr_progs s) i); [|exact H].
    destruct (prim _ _ _ _). cbn [pr_progs]. rewrite put_len. exact H. }
  destruct (all_written cache cert key keys clock f s V) as (A & W1 & W2).
  - intros [B1 B2]. apply NB. split; unfold HasFile; [destruct (f cert) as [[|c]|]|destruct (f key) as [[|c]|]]; try discriminate; eexists; reflexivity.
  - exact AD.
  - intros E. rewrite E in LEN. cbn in LEN. lia.
  - split; [apply Forall_forall; exact A|].
    destruct (last_writer cache cert key keys clock f s cert (or_introl eq_refl) V OC W1) as (i & L1 & R1).
    destruct (last_writer cache cert key keys clock f s key (or_intror eq_refl) V OK W2) as (j & L2 & R2).
    exists i, j. split; [exact L1|]. split; [exact L2|].
    unfold load_pair. rewrite (i_cert _ _ _ _ _ _ _ V), R1, (i_key _ _ _ _ _ _ _ V), R2.
    rewrite (block_cert cert keys clock i), (block_key cert key D1 keys clock j). cbn [c_key crt].
    destruct (N.eqb_spec (keys i) (keys j)) as [E|E]; split; try congruence.
Qed.

(* the pair is there: nobody touches anything *)
Theorem many_found : forall keys clock n sched f, HasFile f cert -> HasFile f key ->
  let s := turns keys clock sched (started cache cert key n f) in
  pr_files s = f /\ pr_log s = [] /\ forall i o, nth_error (pr_progs s) i = Some (FRet o) -> o = Some (cert, key).
Proof.
  intros keys clock n sched f [c1 F1] [c2 F2].
  assert (Q : forall s, pr_files s = f -> pr_log s = [] -> (forall i p, nth_error (pr_progs s) i = Some p -> p = p0 cache cert key \/ p = p1 cache cert key \/ p = ok cert key) ->
    let s' := turns keys clock sched s in pr_files s' = f /\ pr_log s' = [] /\ forall i o, nth_error (pr_progs s') i = Some (FRet o) -> o = Some (cert, key)).
  { induction sched as [|i l IH]; intros s E1 E2 E3.
    - cbn. split; [exact E1|]. split; [exact E2|]. intros i o H. destruct (E3 i _ H) as [X|[X|X]]; [discriminate|discriminate|]. injection X as ->. reflexivity.
    - cbn [turns fold_left]. change (fold_left (fun s i => turn keys clock i s) l (turn keys clock i s)) with (turns keys clock l (turn keys clock i s)). apply IH; clear IH.
      + unfold turn. destruct (nth_error (pr_progs s) i) as [p|] eqn:N; [|exact E1]. destruct (E3 i p N) as [->|[->| ->]]; exact E1.
      + unfold turn. destruct (nth_error (pr_progs s) i) as [p|] eqn:N; [|exact E2]. destruct (E3 i p N) as [->|[->| ->]]; cbn; rewrite E2; reflexivity.
      + unfold turn. destruct (nth_error (pr_progs s) i) as [p|] eqn:N; [|exact E3]. intros j r.
        destruct (E3 i p N) as [->|[->| ->]]; cbn [prim p0 p1 ok pr_progs]; rewrite put_nth, N, ?E1; (destruct (Nat.eqb_spec i j) as [<-|]; [|apply E3]); intros [= <-].
        * rewrite F1. cbn. right. left. reflexivity.
        * rewrite F2. cbn. right. right. reflexivity.
        * right. right. reflexivity. }
  apply Q; [reflexivity|reflexivity|]. intros i p H. left. cbn in H. apply repeat_nth in H. exact H.
Qed.
End Exact.
