(* The life of an application: its hooks, why Serve returns, Serve again (C96, C97, C98). *)
From Verif Require Import M_Base M_App M_Server M_Life S_Server S_Life L_Server L_Server2 L_Life.

(* ---- C96: hooks ---- *)
(* in every state of every execution, the hooks called since Serve was called are the first ones of:
   OnBind for each address in turn, OnStart, OnStop *)
Theorem C96_order : forall srcs hs stops al l, Lives srcs hs stops al l -> exists rest, all_hooks srcs = f_log l ++ rest.
Proof.
  intros srcs hs stops al l H. pose proof (log_lives _ _ _ _ _ H) as HL. unfold LogOk in HL. unfold all_hooks. destruct (f_phase l) as [todo| |[e|]].
  - destruct HL as (done & -> & -> & _). rewrite binds_app, <- app_assoc. eauto.
  - destruct HL as (_ & HL). destruct (y_main (f_sys l)); destruct HL as (-> & _); unfold all_hooks; try (exists []; rewrite app_nil_r; reflexivity); rewrite <- ?app_assoc; cbn [app]; eauto.
    all: exists [HStop]; rewrite <- app_assoc; reflexivity.
  - destruct HL as (-> & _). exists []. rewrite app_nil_r. reflexivity.
  - destruct HL as (done & rest & -> & -> & _). rewrite binds_app, <- app_assoc. eauto.
Qed.
Print Assumptions C96_order.
(* as many listeners are there as OnBind was called for; OnStart is called when all are *)
Theorem C96_bound : forall srcs hs stops al l, Lives srcs hs stops al l ->
  exists done rest tail, srcs = done ++ rest /\ f_log l = binds done ++ tail /\ List.length (y_srvs (f_sys l)) = List.length done /\ (tail <> [] -> rest = []) /\
    (tail = [] \/ tail = [HStart] \/ tail = [HStart; HStop]).
Proof.
  intros srcs hs stops al l H. pose proof (log_lives _ _ _ _ _ H) as HL. unfold LogOk in HL. destruct (f_phase l) as [todo| |[e|]].
  - destruct HL as (done & E1 & E2 & E3 & _). exists done, todo, []. rewrite app_nil_r. repeat split; auto. congruence.
  - destruct HL as (EL & HL). exists srcs, []. rewrite app_nil_r. destruct (y_main (f_sys l)); destruct HL as (E & _);
      [exists []; rewrite app_nil_r|exists [HStart]..|exists [HStart; HStop]]; repeat split; auto.
  - destruct HL as (E & _ & _ & EL). exists srcs, [], [HStart; HStop]. rewrite app_nil_r. repeat split; auto.
  - destruct HL as (done & rest & E1 & E2 & E3 & _). exists done, rest, []. rewrite app_nil_r. repeat split; auto. congruence.
Qed.
Print Assumptions C96_bound.
(* when OnStart is called every server was started *)
Theorem C96_started : forall srcs hs stops al l, Lives srcs hs stops al l -> In HStart (f_log l) -> forall k v, nth_error (y_srvs (f_sys l)) k = Some v -> v_loop v <> LIdle.
Proof.
  intros srcs hs stops al l H HI k v Hv E. pose proof (counts_lives _ _ _ _ _ H k v Hv) as (_ & _ & _ & D). apply D in E. destruct E as (i & Ei & _).
  pose proof (log_lives _ _ _ _ _ H) as HL. unfold LogOk in HL. assert (NB : forall x, ~ In HStart (binds x)) by (intros x X; apply in_map_iff in X; destruct X as (? & X & _); discriminate).
  destruct (f_phase l) as [todo| |[e|]].
  - destruct HL as (done & _ & E2 & _). rewrite E2 in HI. exact (NB _ HI).
  - destruct HL as (_ & HL). rewrite Ei in HL. destruct HL as (E2 & _). rewrite E2 in HI. exact (NB _ HI).
  - destruct HL as (_ & E2 & _). congruence.
  - destruct HL as (done & rest & _ & E2 & _). rewrite E2 in HI. exact (NB _ HI).
Qed.
Print Assumptions C96_started.
(* when OnStop is called every listener is closed, and of each at most one client is left *)
Theorem C96_stopped : forall srcs hs stops al l, Lives srcs hs stops al l -> In HStop (f_log l) -> forall k v, nth_error (y_srvs (f_sys l)) k = Some v ->
  v_closed v = true /\ (v_handlers v + in_flight v <= 1)%nat.
Proof.
  intros srcs hs stops al l H HI k v Hv. pose proof (counts_lives _ _ _ _ _ H k v Hv) as (_ & B & C & _).
  pose proof (log_lives _ _ _ _ _ H) as HL. unfold LogOk in HL. assert (NB : forall x, ~ In HStop (binds x)) by (intros x X; apply in_map_iff in X; destruct X as (? & X & _); discriminate).
  assert (NB2 : forall x, ~ In HStop (binds x ++ [HStart])) by (intros x X; apply in_app_or in X; destruct X as [X|[X|[]]]; [exact (NB _ X)|discriminate]).
  assert (K : y_main (f_sys l) = MRet).
  { destruct (f_phase l) as [todo| |[e|]].
    - destruct HL as (done & _ & E2 & _). rewrite E2 in HI. exfalso. exact (NB _ HI).
    - destruct HL as (_ & HL). destruct (y_main (f_sys l)); destruct HL as (E2 & _); try reflexivity; rewrite E2 in HI; exfalso; try exact (NB _ HI); exact (NB2 _ HI).
    - exact (proj1 (proj2 HL)).
    - destruct HL as (done & rest & _ & E2 & _). rewrite E2 in HI. exfalso. exact (NB _ HI). }
  rewrite K in B, C. split; [exact (B I)|exact (C I)].
Qed.
Print Assumptions C96_stopped.
(* a Serve that returns either called all hooks, or failed to listen on some address: then it called
   OnBind for those before that one, and nothing else *)
Theorem C96_over : forall srcs hs stops al l, Lives srcs hs stops al l ->
  (forall e, f_phase l = FOver (Some e) -> f_log l = all_hooks srcs) /\
  (f_phase l = FOver None -> exists done rest, srcs = done ++ rest /\ f_log l = binds done).
Proof.
  intros srcs hs stops al l H. pose proof (log_lives _ _ _ _ _ H) as HL. unfold LogOk in HL. split.
  - intros e E. rewrite E in HL. exact (proj1 HL).
  - intros E. rewrite E in HL. destruct HL as (done & rest & E1 & E2 & _). eauto.
Qed.
Print Assumptions C96_over.
(* what Serve returns: what Stop or GracefulStop sent, or the error of an Accept that failed during
   this very Serve, or something left over from an earlier one *)
Theorem C96_reason : forall srcs hs stops al1 al2 l e, Lives srcs hs stops (al1 ++ KServe :: al2) l -> f_phase l = FOver (Some e) ->
  In e stops \/ (e = SAccept /\ AcceptFailed al2) \/ TakesOld al2.
Proof. exact reason_last. Qed.
Print Assumptions C96_reason.
(* nothing is left over for the first one *)
Theorem C96_reason_first : forall srcs hs stops al l e, Lives srcs hs stops al l -> serves al = 1%nat -> f_phase l = FOver (Some e) ->
  In e stops \/ (e = SAccept /\ AcceptFailed al).
Proof.
  intros srcs hs stops al l e H HS Hp. pose proof (reason_lives _ _ _ _ _ H) as (_ & _ & R & _). destruct (first_lives _ _ _ _ _ H) as [_ F]. destruct (F HS) as [_ N].
  destruct (R e (or_intror Hp)) as [K|[K|K]]; auto. contradiction.
Qed.
Print Assumptions C96_reason_first.

Definition ex_srcs : list source := [Source (B ":80") LPlain None; Source (B ":443") LPlain None].
Definition no_calls : hooks := Hooks (fun _ => []) [] [].
(* a Serve of two listeners, stopped from outside *)
Definition ex_serve : list lact := [KServe; KBind (Some true); KBind (Some true); KMain; KMain; KMain; KMain].
Definition ex_stop : list lact :=
  [KRun (ALoop 0); KRun (ALoop 1); KRun (ACall 0); KRun (ATakeCall 0); KMain; KMain; KMain; KRun (AFail 0); KRun (AFail 1); KRun (ALoop 1); KRun (ALoop 0); KMain; KMain; KMain; KMain; KMain].
Example C96_case : forall l, Lives ex_srcs no_calls [SShutdown] (ex_serve ++ ex_stop) l ->
  f_phase l = FOver (Some SShutdown) /\ f_log l = [HBind (B ":80"); HBind (B ":443"); HStart; HStop].
Proof. intros l H. unfold Lives in H. vm_compute in H. injection H as <-. split; reflexivity. Qed.
Example C96_case_lives : exists l, Lives ex_srcs no_calls [SShutdown] (ex_serve ++ ex_stop) l.
Proof. eexists. unfold Lives. vm_compute. reflexivity. Qed.
Example C96_case_bind : forall l, Lives ex_srcs no_calls [] [KServe; KBind (Some true); KBind None] l -> f_phase l = FOver None /\ f_log l = [HBind (B ":80")].
Proof. intros l H. unfold Lives in H. vm_compute in H. injection H as <-. split; reflexivity. Qed.

(* ---- C97: stopping from a hook, serving again ---- *)
(* a hook that calls Stop or GracefulStop never comes back: whatever happens, Serve stays in it *)
Theorem C97_blocked : forall srcs hs stops al l al' l', Lives srcs hs stops al l -> f_sends l <> [] -> lacts srcs hs al' l = Some l' ->
  f_phase l' = f_phase l /\ f_sends l' = f_sends l /\ f_log l' = f_log l.
Proof.
  intros srcs hs stops al l al' l' H HN H'. destruct (sends_lives _ _ _ _ _ H) as [S0 _]. destruct (blocked srcs hs al' l l' S0 HN H') as (A & B & C & _). auto.
Qed.
Print Assumptions C97_blocked.
(* so Serve returns what run returned only if no hook called any *)
Theorem C97_hooks : forall srcs hs stops al l e, Lives srcs hs stops al l -> f_phase l = FOver (Some e) ->
  (forall src, In src srcs -> hk_bind hs (so_addr src) = []) /\ hk_start hs = [] /\ hk_stop hs = [].
Proof.
  intros srcs hs stops al l e H Hp. destruct (sends_lives _ _ _ _ _ H) as [S0 S1]. specialize (S1 (S0 _ Hp)). rewrite (proj1 (C96_over _ _ _ _ _ H) e Hp) in S1. unfold all_hooks in S1.
  apply Forall_app in S1. destruct S1 as [A B]. inversion B as [|? ? B1 B2]. inversion B2 as [|? ? B3 _]. split; [|split; [exact B1|exact B3]].
  intros src Hi. rewrite Forall_forall in A. apply (A (HBind (so_addr src))). apply in_map_iff. eauto.
Qed.
Print Assumptions C97_hooks.
(* an OnStart that stops the application - Stop is documented as not blocking - makes it hang:
   clients are served, Serve never returns *)
Theorem C97_refuted : exists srcs hs al l, hk_start hs = [SShutdown] /\ Lives srcs hs [] al l /\
  forall al' l', lacts srcs hs al' l = Some l' -> f_phase l' = FRun.
Proof.
  exists ex_srcs, (Hooks (fun _ => []) [SShutdown] []), ex_serve.
  destruct (lacts ex_srcs (Hooks (fun _ => []) [SShutdown] []) ex_serve (life_start [])) as [l|] eqn:E; [|vm_compute in E; discriminate].
  exists l. split; [reflexivity|]. split; [exact E|]. intros al' l' H'.
  assert (K : f_phase l = FRun /\ f_sends l = [SShutdown]) by (vm_compute in E; injection E as <-; split; reflexivity). destruct K as [K1 K2].
  destruct (C97_blocked _ _ _ _ _ _ _ E ltac:(rewrite K2; discriminate) H') as (A & _). congruence.
Qed.
Print Assumptions C97_refuted.
Definition ex_one : list source := [Source (B ":80") LPlain None].
Definition ex_again1 : list lact :=
  [KServe; KBind (Some true); KMain; KMain; KMain; KRun (ALoop 0); KRun (ACall 0); KRun (ATakeCall 0); KMain; KMain; KMain; KMain; KMain; KMain; KRun (AFail 0); KRun (ALoop 0)].
Definition ex_again2 : list lact := [KBind (Some true); KMain; KMain; KMain; KTakeOld 1 0; KMain; KMain; KMain; KMain; KMain; KMain].
(* an application stopped by Stop and served again stops by itself: nobody called Stop again,
   no Accept failed during the second Serve *)
Theorem C97_again_refuted : exists srcs stops al1 al2 l1 l e, Lives srcs no_calls stops al1 l1 /\ f_phase l1 = FOver (Some SShutdown) /\
  Lives srcs no_calls stops (al1 ++ KServe :: al2) l /\ f_phase l = FOver (Some e) /\ ~ In e stops /\ ~ AcceptFailed al2.
Proof.
  exists ex_one, [SShutdown], ex_again1, ex_again2. do 2 eexists. exists SAccept. split; [unfold Lives; vm_compute; reflexivity|]. split; [reflexivity|].
  split; [unfold Lives; vm_compute; reflexivity|]. split; [reflexivity|]. split; [intros [H|[]]; discriminate|].
  intros (i & H). unfold ex_again2 in H. repeat (destruct H as [H|H]; [discriminate|]). exact H.
Qed.
Print Assumptions C97_again_refuted.
(* always so: after an application of one listener or more was stopped by Stop or GracefulStop, and
   all its goroutines came to rest, whenever run of the next Serve waits for a reason to stop, there
   is one at hand that nobody gave: what a goroutine of the first Serve is waiting to send *)
Theorem C97_stale : forall srcs hs stops al l e al' l', srcs <> [] -> Lives srcs hs stops al l -> serves al = 1%nat -> f_phase l = FOver (Some e) ->
  ByCall (f_sys l) -> LoopsRest (f_sys l) -> lacts srcs hs al' l = Some l' -> serves al' = 1%nat -> ~ TakesOld al' -> Waits l' ->
  exists i e' l'', ldo srcs hs (KTakeOld 1 i) l' = Some l'' /\ f_err l'' = Some e' /\ (e' = SAccept \/ e' = SNil).
Proof.
  intros srcs hs stops al l e al' l' Hne H HS Hp HB HR H' HS' NT (W1 & W2 & W3).
  destruct (first_lives _ _ _ _ _ H) as [_ F1]. destruct (F1 HS) as ((x & Ex & _) & N). pose proof (runs_lives _ _ _ _ _ H N) as R. rewrite Hp in R. destruct R as (ds & es & P).
  pose proof (log_lives _ _ _ _ _ H) as HL. unfold LogOk in HL. rewrite Hp in HL. destruct HL as (_ & Hm & _ & Hlen).
  assert (Hd : ds <> []).
  { intros ->. assert (List.length (y_srvs (f_sys l)) = 0%nat) as X; [|rewrite X in Hlen; destruct srcs; [congruence|discriminate]].
    apply (reaches_inv (fun s => List.length (y_srvs s) = 0%nat)) with (s := sys_start [] es); [|exact P|reflexivity]. intros s a s' X Hd. rewrite (do_length s a s' Hd). exact X. }
  destruct (rest_by_call ds es _ Hd P HB HR) as (i & (v & Hv & e' & He) & _).
  assert (ST : Stale i e' (f_sys l)) by (split; [exact Hm|unfold loop_at; rewrite Hv; cbn; rewrite He; reflexivity]).
  destruct (kept srcs hs (Stale i e') l e (stale_step i e') ST Hp al' l' H') as [_ K1]. destruct (K1 HS' NT) as (s & X & [_ Y] & _). rewrite Ex in X. cbn [List.length] in X.
  exists i, e'. eexists. cbn [ldo]. rewrite W1, W2, W3, X. cbn [received]. unfold loop_at in Y. destruct (nth_error (y_srvs s) i) as [u|]; [|discriminate]. cbn in Y. injection Y as ->.
  split; [reflexivity|]. split; [reflexivity|]. pose proof (reason_lives _ _ _ _ _ H) as (R1 & _). destruct (R1 i v e' Hv (or_intror He)) as [->|[-> _]]; auto.
Qed.
Print Assumptions C97_stale.
(* what is guaranteed: the application may be served again if the first Serve ended because of a
   listener, and its goroutines came to rest: the second receives nothing old *)
Theorem C97_again_partial : forall srcs hs stops al l e al' l', Lives srcs hs stops al l -> serves al = 1%nat -> f_phase l = FOver (Some e) ->
  ~ ByCall (f_sys l) -> LoopsRest (f_sys l) -> lacts srcs hs (KServe :: al') l = Some l' -> serves al' = 0%nat ->
  ~ TakesOld al' /\ forall e', f_phase l' = FOver (Some e') -> In e' stops \/ (e' = SAccept /\ AcceptFailed al').
Proof.
  intros srcs hs stops al l e al' l' H HS Hp HB HR H' HS'.
  destruct (first_lives _ _ _ _ _ H) as [_ F1]. destruct (F1 HS) as (_ & N). pose proof (runs_lives _ _ _ _ _ H N) as R. rewrite Hp in R. destruct R as (ds & es & P).
  pose proof (log_lives _ _ _ _ _ H) as HL. unfold LogOk in HL. rewrite Hp in HL. destruct HL as (_ & Hm & _ & Hlen).
  assert (HE : AllEnded (f_sys l)).
  { split; [exact Hm|]. apply (rest_by_listener ds es); auto. split; [intros i|]; rewrite Hm; discriminate. }
  assert (K : ~ TakesOld (KServe :: al')) by (apply (none_old srcs hs stops al l e _ l' H HS Hp HE H'); cbn [serves]; lia).
  assert (K' : ~ TakesOld al') by (intros (k & i & T); apply K; exists k, i; right; exact T).
  split; [exact K'|]. intros e' Hp'. pose proof (lives_app _ _ _ _ _ _ _ H H') as HL'. destruct (C96_reason _ _ _ _ _ _ _ HL' Hp') as [X|[X|X]]; auto. contradiction.
Qed.
Print Assumptions C97_again_partial.
(* a listener fails; the application is served again, and stopped by a call *)
Definition ex_fail1 : list lact := [KServe; KBind (Some true); KMain; KMain; KMain; KRun (ALoop 0); KRun (AFail 0); KRun (ALoop 0); KRun (ATakeLoop 0); KMain; KMain; KMain; KMain; KMain; KMain].
Definition ex_fail2 : list lact := [KBind (Some true); KMain; KMain; KMain; KRun (ACall 0); KRun (ATakeCall 0); KMain; KMain; KMain; KMain; KMain; KMain].
Example C97_again_case : exists l l', Lives ex_one no_calls [SShutdown] ex_fail1 l /\ f_phase l = FOver (Some SAccept) /\ ~ ByCall (f_sys l) /\ LoopsRest (f_sys l) /\
  lacts ex_one no_calls (KServe :: ex_fail2) l = Some l' /\ f_phase l' = FOver (Some SShutdown).
Proof.
  do 2 eexists. split; [unfold Lives; vm_compute; reflexivity|]. split; [reflexivity|]. split; [intros ([|[|j]] & E); discriminate|].
  split; [intros [|[|i]]; repeat split|]. split; [vm_compute; reflexivity|reflexivity].
Qed.

(* ---- C98: nothing is listened on once Serve has returned ---- *)
(* what is guaranteed: if run was reached, all listeners are closed *)
Theorem C98_partial : forall srcs hs stops al l e, Lives srcs hs stops al l -> f_phase l = FOver (Some e) ->
  List.length (y_srvs (f_sys l)) = List.length srcs /\ forall k v, nth_error (y_srvs (f_sys l)) k = Some v -> v_closed v = true.
Proof.
  intros srcs hs stops al l e H Hp. pose proof (log_lives _ _ _ _ _ H) as HL. unfold LogOk in HL. rewrite Hp in HL. destruct HL as (E & _ & _ & EL). split; [exact EL|].
  intros k v Hv. apply (C96_stopped srcs hs stops al l H) with (k := k); [|exact Hv]. rewrite E. unfold all_hooks. apply in_or_app. right. right. left. reflexivity.
Qed.
Print Assumptions C98_partial.
(* exactly: if it was not, all that OnBind was called for are still open, and nobody accepts from them
   (they stay so until Go's garbage collector finds them) *)
Theorem C98_left : forall srcs hs stops al l, Lives srcs hs stops al l -> f_phase l = FOver None ->
  List.length (y_srvs (f_sys l)) = List.length (f_log l) /\ forall k v, nth_error (y_srvs (f_sys l)) k = Some v -> v_closed v = false /\ v_loop v = LIdle.
Proof.
  intros srcs hs stops al l H Hp. pose proof (log_lives _ _ _ _ _ H) as HL. unfold LogOk in HL. rewrite Hp in HL. destruct HL as (done & rest & _ & E2 & E3 & E4).
  split; [rewrite E2, E3; unfold binds; rewrite map_length; reflexivity|]. intros k v Hv. assert (Em : y_main (f_sys l) = MSpawn 0) by (apply E4; intros E; rewrite E in Hv; destruct k; discriminate).
  split; [exact (open_lives _ _ _ _ _ H (ex_intro _ _ Em) k v Hv)|]. destruct (counts_lives _ _ _ _ _ H k v Hv) as (_ & _ & _ & D). apply D. exists 0%nat. split; [exact Em|lia].
Qed.
Print Assumptions C98_left.
(* an application of two listeners, the second of which cannot be opened: Serve returns its error and
   leaves the first open, so that serving again on that address may fail *)
Theorem C98_refuted : exists srcs al l v, Lives srcs no_calls [] al l /\ f_phase l = FOver None /\ nth_error (y_srvs (f_sys l)) 0 = Some v /\ v_closed v = false.
Proof. exists ex_srcs, [KServe; KBind (Some true); KBind None]. do 2 eexists. split; [unfold Lives; vm_compute; reflexivity|]. repeat split. Qed.
Print Assumptions C98_refuted.
Example C98_case : exists l, Lives ex_srcs no_calls [SShutdown] (ex_serve ++ ex_stop) l /\ map v_closed (y_srvs (f_sys l)) = [true; true].
Proof. eexists. split; [unfold Lives; vm_compute; reflexivity|reflexivity]. Qed.
