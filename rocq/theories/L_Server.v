(* Lemmas about stopping. *)
From Verif Require Import M_Base M_Server S_Server L_Base.

Lemma upd_length : forall A (l : list A) i f, List.length (upd l i f) = List.length l.
Proof. induction l as [|x l IH]; intros [|i] f; cbn; auto. Qed.
Lemma upd_nth : forall A (l : list A) i f j, nth_error (upd l i f) j = if Nat.eqb i j then option_map f (nth_error l j) else nth_error l j.
Proof. induction l as [|x l IH]; intros [|i] f [|j]; cbn [upd nth_error Nat.eqb option_map]; auto. destruct (Nat.eqb i j); reflexivity. Qed.
Lemma reaches_refl : forall s, Reaches s s. Proof. intros s. exists []. reflexivity. Qed.
Lemma acts_app : forall l1 l2 s, acts (l1 ++ l2) s = match acts l1 s with Some s' => acts l2 s' | None => None end.
Proof. induction l1 as [|a l1 IH]; intros l2 s; cbn [app acts]; [reflexivity|]. destruct (do a s); auto. Qed.
Lemma reaches_step : forall s a s' t, do a s = Some s' -> Reaches s' t -> Reaches s t.
Proof. intros s a s' t H (l & Hl). exists (a :: l). cbn [acts]. rewrite H. exact Hl. Qed.
Lemma reaches_trans : forall s t u, Reaches s t -> Reaches t u -> Reaches s u.
Proof. intros s t u (l & H) (l' & H'). exists (l ++ l'). rewrite acts_app, H. exact H'. Qed.
Lemma reaches_inv : forall (I : sys -> Prop), (forall s a s', I s -> do a s = Some s' -> I s') -> forall s s', Reaches s s' -> I s -> I s'.
Proof.
  intros I HI s s' (l & Hl). revert s Hl. induction l as [|a l IH]; intros s Hl Hs; cbn [acts] in Hl; [injection Hl as <-; exact Hs|].
  destruct (do a s) as [t|] eqn:E; [|discriminate]. apply (IH t Hl). exact (HI s a t Hs E).
Qed.

(* what a step does to one server *)
Inductive vstep (s : sys) (i : nat) (v : srv) : act -> srv -> Prop :=
| Vs_same : forall a, vstep s i v a v
| Vs_spawn : y_main s = MSpawn i -> vstep s i v AMain (set_loop LLoad v)
| Vs_pause : y_main s = MPause i -> vstep s i v AMain (set_paused v)
| Vs_stop : y_main s = MStop i -> vstep s i v AMain (set_closed v)
| Vs_load : v_loop v = LLoad -> vstep s i v (ALoop i) (set_loop (if v_shutdown v then LSwap SNil else LAccept) v)
| Vs_add : v_loop v = LAdd -> vstep s i v (ALoop i) (set_wg (S (v_wg v)) (set_loop LGo v))
| Vs_go : v_loop v = LGo -> vstep s i v (ALoop i) (set_handlers (S (v_handlers v)) (set_loop LLoad v))
| Vs_swap : forall e, v_loop v = LSwap e -> vstep s i v (ALoop i) (set_loop (if y_silent s then LEnd else LSend e) v)
| Vs_client : v_loop v = LAccept -> v_closed v = false -> v_deadline v = false -> vstep s i v (AClient i) (set_loop LAdd v)
| Vs_fail : v_loop v = LAccept -> vstep s i v (AFail i) (set_loop (LSwap SAccept) v)
| Vs_handler : forall h, v_handlers v = S h -> vstep s i v (AHandler i) (set_wg (pred (v_wg v)) (set_handlers h v))
| Vs_take : forall e, y_main s = MRecv -> v_loop v = LSend e -> vstep s i v (ATakeLoop i) (set_loop LEnd v).
Lemma upd_cases : forall s i f k v', nth_error (upd (y_srvs s) i f) k = Some v' ->
  exists v, nth_error (y_srvs s) k = Some v /\ ((i = k /\ v' = f v) \/ (i <> k /\ v' = v)).
Proof.
  intros s i f k v' H. rewrite upd_nth in H. destruct (Nat.eqb_spec i k) as [->|N].
  - destruct (nth_error (y_srvs s) k) as [v|]; [|discriminate]. injection H as <-. exists v. auto.
  - exists v'. auto.
Qed.
Lemma do_srv : forall s a s' k v', do a s = Some s' -> nth_error (y_srvs s') k = Some v' ->
  exists v, nth_error (y_srvs s) k = Some v /\ vstep s k v a v'.
Proof.
  intros s a s' k v' H Hv.
  assert (Same : y_srvs s' = y_srvs s -> exists v, nth_error (y_srvs s) k = Some v /\ vstep s k v a v').
  { intros E. rewrite E in Hv. exists v'. split; [exact Hv|constructor]. }
  destruct a as [|i|i|i|i|j|i|j]; cbn [do] in H.
  - unfold main_step in H. destruct (y_main s) eqn:Em.
    + destruct (Nat.ltb i (List.length (y_srvs s))); injection H as <-; [|apply Same; reflexivity].
      cbn [set_main upd_srv y_srvs] in Hv. apply upd_cases in Hv. destruct Hv as (v & Hv & [[-> ->]|[_ ->]]); exists v; (split; [exact Hv|]); constructor. exact Em.
    + discriminate.
    + destruct (Nat.ltb i (List.length (y_srvs s))); injection H as <-; [|apply Same; reflexivity].
      cbn [set_main upd_srv y_srvs] in Hv. apply upd_cases in Hv. destruct Hv as (v & Hv & [[-> ->]|[_ ->]]); exists v; (split; [exact Hv|]); constructor. exact Em.
    + destruct (nth_error (y_srvs s) i) as [v|]; [destruct (Nat.eqb (v_wg v) 0); [|discriminate]|]; injection H as <-; apply Same; reflexivity.
    + destruct (Nat.ltb i (List.length (y_srvs s))); injection H as <-; [|apply Same; reflexivity].
      cbn [set_main upd_srv y_srvs] in Hv. apply upd_cases in Hv. destruct Hv as (v & Hv & [[-> ->]|[_ ->]]); exists v; (split; [exact Hv|]); constructor. exact Em.
    + destruct (nth_error (y_srvs s) i) as [v|]; [destruct (Nat.eqb (v_wg v) 0); [|discriminate]|]; injection H as <-; apply Same; reflexivity.
    + injection H as <-. apply Same. reflexivity.
    + discriminate.
  - destruct (nth_error (y_srvs s) i) as [v|] eqn:Ei; [|discriminate]. destruct (v_loop v) eqn:El; try discriminate; injection H as <-;
      cbn [upd_srv y_srvs] in Hv; apply upd_cases in Hv; destruct Hv as (u & Hv & [[<- ->]|[_ ->]]);
      try (exists u; split; [exact Hv|]; constructor; fail); rewrite Ei in Hv; injection Hv as <-; exists v; (split; [exact Ei|]); econstructor; exact El.
  - destruct (nth_error (y_srvs s) i) as [v|] eqn:Ei; [|discriminate]. destruct (v_loop v) eqn:El; try discriminate.
    destruct (v_closed v) eqn:E1; [discriminate|]. destruct (v_deadline v) eqn:E2; [discriminate|]. injection H as <-.
    cbn [upd_srv y_srvs] in Hv. apply upd_cases in Hv. destruct Hv as (u & Hv & [[<- ->]|[_ ->]]); [|exists u; split; [exact Hv|constructor]].
    rewrite Ei in Hv. injection Hv as <-. exists v. split; [exact Ei|]. constructor; assumption.
  - destruct (nth_error (y_srvs s) i) as [v|] eqn:Ei; [|discriminate]. destruct (v_loop v) eqn:El; try discriminate. injection H as <-.
    cbn [upd_srv y_srvs] in Hv. apply upd_cases in Hv. destruct Hv as (u & Hv & [[<- ->]|[_ ->]]); [|exists u; split; [exact Hv|constructor]].
    rewrite Ei in Hv. injection Hv as <-. exists v. split; [exact Ei|]. constructor; assumption.
  - destruct (nth_error (y_srvs s) i) as [v|] eqn:Ei; [|discriminate]. destruct (v_handlers v) as [|h] eqn:El; [discriminate|]. injection H as <-.
    cbn [upd_srv y_srvs] in Hv. apply upd_cases in Hv. destruct Hv as (u & Hv & [[<- ->]|[_ ->]]); [|exists u; split; [exact Hv|constructor]].
    rewrite Ei in Hv. injection Hv as <-. exists v. split; [exact Ei|]. constructor; assumption.
  - destruct (nth_error (y_calls s) j) as [[e|e|]|]; try discriminate. injection H as <-. apply Same. reflexivity.
  - destruct (y_main s) eqn:Em; try discriminate. destruct (nth_error (y_srvs s) i) as [v|] eqn:Ei; [|discriminate]. destruct (v_loop v) eqn:El; try discriminate. injection H as <-.
    cbn [set_main upd_srv y_srvs] in Hv. apply upd_cases in Hv. destruct Hv as (u & Hv & [[<- ->]|[_ ->]]); [|exists u; split; [exact Hv|constructor]].
    rewrite Ei in Hv. injection Hv as <-. exists v. split; [exact Ei|]. econstructor; eassumption.
  - destruct (y_main s) eqn:Em; try discriminate. destruct (nth_error (y_calls s) j) as [[e|e|]|]; try discriminate. injection H as <-. apply Same. reflexivity.
Qed.
Lemma do_length : forall s a s', do a s = Some s' -> List.length (y_srvs s') = List.length (y_srvs s).
Proof.
  intros s a s' H. destruct a as [|i|i|i|i|j|i|j]; cbn [do] in H; unfold main_step in H;
  repeat match type of H with
  | (match ?x with _ => _ end) = _ => destruct x; try discriminate
  end; injection H as <-; cbn [y_srvs set_main upd_srv upd_call]; rewrite ?upd_length; reflexivity.
Qed.

(* main: what a step can do to it *)
Inductive mstep (s : sys) : act -> mpc -> Prop :=
| Ms_same : forall a, a <> AMain -> (forall i, a <> ATakeLoop i) -> (forall i, a <> ATakeCall i) -> mstep s a (y_main s)
| Ms_spawn : forall i, y_main s = MSpawn i -> (i < List.length (y_srvs s))%nat -> mstep s AMain (MSpawn (S i))
| Ms_recv : forall i, y_main s = MSpawn i -> (List.length (y_srvs s) <= i)%nat -> mstep s AMain MRecv
| Ms_pause : forall i, y_main s = MPause i -> (i < List.length (y_srvs s))%nat -> mstep s AMain (MPause (S i))
| Ms_paused : forall i, y_main s = MPause i -> (List.length (y_srvs s) <= i)%nat -> mstep s AMain (MPauseWait 0)
| Ms_pwait : forall i v, y_main s = MPauseWait i -> nth_error (y_srvs s) i = Some v -> v_wg v = 0%nat -> mstep s AMain (MPauseWait (S i))
| Ms_pwaited : forall i, y_main s = MPauseWait i -> (List.length (y_srvs s) <= i)%nat -> mstep s AMain (MStop 0)
| Ms_stop : forall i, y_main s = MStop i -> (i < List.length (y_srvs s))%nat -> mstep s AMain (MStop (S i))
| Ms_stopped : forall i, y_main s = MStop i -> (List.length (y_srvs s) <= i)%nat -> mstep s AMain (MStopWait 0)
| Ms_swait : forall i v, y_main s = MStopWait i -> nth_error (y_srvs s) i = Some v -> v_wg v = 0%nat -> mstep s AMain (MStopWait (S i))
| Ms_swaited : forall i, y_main s = MStopWait i -> (List.length (y_srvs s) <= i)%nat -> mstep s AMain MHook
| Ms_hook : y_main s = MHook -> mstep s AMain MRet
| Ms_take_loop : forall i v e, y_main s = MRecv -> nth_error (y_srvs s) i = Some v -> v_loop v = LSend e -> mstep s (ATakeLoop i) (after e)
| Ms_take_call : forall j e, y_main s = MRecv -> nth_error (y_calls s) j = Some (CSend e) -> mstep s (ATakeCall j) (after e).
Ltac main_same := match goal with |- mstep ?s ?a _ => change (mstep s a (y_main s)); apply Ms_same; discriminate end.
Lemma do_main : forall s a s', do a s = Some s' -> mstep s a (y_main s').
Proof.
  intros s a s' H. destruct a as [|i|i|i|i|j|i|j]; cbn [do] in H.
  - unfold main_step in H. destruct (y_main s) eqn:Em; try discriminate.
    + destruct (Nat.ltb_spec i (List.length (y_srvs s))); injection H as <-; cbn [y_main set_main upd_srv]; econstructor; eassumption.
    + destruct (Nat.ltb_spec i (List.length (y_srvs s))); injection H as <-; cbn [y_main set_main upd_srv]; econstructor; eassumption.
    + destruct (nth_error (y_srvs s) i) as [v|] eqn:E; [destruct (Nat.eqb_spec (v_wg v) 0); [|discriminate]|apply nth_error_None in E]; injection H as <-; cbn [y_main set_main upd_srv].
      * exact (Ms_pwait s i v Em E e). * exact (Ms_pwaited s i Em E).
    + destruct (Nat.ltb_spec i (List.length (y_srvs s))); injection H as <-; cbn [y_main set_main upd_srv]; econstructor; eassumption.
    + destruct (nth_error (y_srvs s) i) as [v|] eqn:E; [destruct (Nat.eqb_spec (v_wg v) 0); [|discriminate]|apply nth_error_None in E]; injection H as <-; cbn [y_main set_main upd_srv].
      * exact (Ms_swait s i v Em E e). * exact (Ms_swaited s i Em E).
    + injection H as <-. constructor. exact Em.
  - destruct (nth_error (y_srvs s) i) as [v|]; [|discriminate]. destruct (v_loop v); try discriminate; injection H as <-; main_same.
  - destruct (nth_error (y_srvs s) i) as [v|]; [|discriminate]. destruct (v_loop v); try discriminate. destruct (v_closed v || v_deadline v); [discriminate|]. injection H as <-. main_same.
  - destruct (nth_error (y_srvs s) i) as [v|]; [|discriminate]. destruct (v_loop v); try discriminate. injection H as <-. main_same.
  - destruct (nth_error (y_srvs s) i) as [v|]; [|discriminate]. destruct (v_handlers v); [discriminate|]. injection H as <-. main_same.
  - destruct (nth_error (y_calls s) j) as [[e|e|]|]; try discriminate. injection H as <-. main_same.
  - destruct (y_main s) eqn:Em; try discriminate. destruct (nth_error (y_srvs s) i) as [v|] eqn:E; [|discriminate]. destruct (v_loop v) eqn:El; try discriminate. injection H as <-.
    exact (Ms_take_loop s i v e Em E El).
  - destruct (y_main s) eqn:Em; try discriminate. destruct (nth_error (y_calls s) j) as [[e|e|]|] eqn:E; try discriminate. injection H as <-. exact (Ms_take_call s j e Em E).
Qed.

(* ---- OnStop ---- *)
(* which servers are closed, which were waited for *)
Definition closed_upto (m : mpc) (k : nat) : Prop :=
  match m with MStop i => (k < i)%nat | MStopWait _ | MHook | MRet => True | _ => False end.
Definition waited_upto (m : mpc) (k : nat) : Prop :=
  match m with MStopWait i => (k < i)%nat | MHook | MRet => True | _ => False end.
Definition counted (v : srv) : nat := match v_loop v with LGo => 1 | _ => 0 end.
Definition Counts (s : sys) : Prop := forall k v, nth_error (y_srvs s) k = Some v ->
  v_wg v = (v_handlers v + counted v)%nat /\ (closed_upto (y_main s) k -> v_closed v = true) /\
  (waited_upto (y_main s) k -> (v_handlers v + in_flight v <= 1)%nat) /\
  (v_loop v = LIdle <-> exists i, y_main s = MSpawn i /\ (i <= k)%nat).
Lemma waited_closed : forall m k, waited_upto m k -> closed_upto m k.
Proof. intros [] k H; cbn in *; auto; contradiction. Qed.
Lemma closed_step : forall s a m k, mstep s a m -> closed_upto m k -> (k < List.length (y_srvs s))%nat ->
  closed_upto (y_main s) k \/ (y_main s = MStop k /\ a = AMain).
Proof.
  intros s a m k H Hc Hk. destruct H; cbn [closed_upto] in Hc; try contradiction; auto; try (destruct e; cbn in Hc; lia || contradiction).
  - lia.
  - destruct (Nat.eq_dec k i) as [->|N]; [right; auto|left; rewrite H; cbn; lia].
  - left. rewrite H. cbn. lia.
  - left. rewrite H. exact I.
  - left. rewrite H. exact I.
  - left. rewrite H. exact I.
Qed.
Lemma waited_step : forall s a m k v, mstep s a m -> waited_upto m k -> nth_error (y_srvs s) k = Some v ->
  waited_upto (y_main s) k \/ (y_main s = MStopWait k /\ a = AMain /\ v_wg v = 0%nat).
Proof.
  intros s a m k v H Hc Hk. assert (L : (k < List.length (y_srvs s))%nat) by (apply nth_error_Some; congruence).
  destruct H; cbn [waited_upto] in Hc; try contradiction; auto; try (destruct e; cbn in Hc; contradiction).
  - lia.
  - destruct (Nat.eq_dec k i) as [->|N]; [right; split; [assumption|]; split; [reflexivity|congruence]|left; rewrite H; cbn; lia].
  - left. rewrite H. cbn. lia.
  - left. rewrite H. exact I.
Qed.
Ltac fields_in := cbn [set_loop set_closed set_paused set_wg set_handlers v_wg v_handlers v_loop v_closed v_shutdown v_deadline v_deadliner] in *.
Lemma vstep_counts : forall s k v a v', vstep s k v a v' -> v_wg v = (v_handlers v + counted v)%nat ->
  (y_main s = MSpawn k -> v_loop v = LIdle) -> v_wg v' = (v_handlers v' + counted v')%nat.
Proof.
  intros s k v a v' H E Hi. destruct H as [a|Hm|Hm|Hm|Hl|Hl|Hl|e Hl|Hl _ _|Hl|h Hh|e Hm Hl]; try exact E; unfold counted in *; fields_in.
  - rewrite (Hi Hm) in E. lia.
  - rewrite Hl in E. destruct (v_shutdown v); lia.
  - rewrite Hl in E. lia.
  - rewrite Hl in E. lia.
  - rewrite Hl in E. destruct (y_silent s); lia.
  - rewrite Hl in E. lia.
  - rewrite Hl in E. lia.
  - rewrite Hh in E. lia.
  - rewrite Hl in E. lia.
Qed.
Lemma vstep_closed : forall s k v a v', vstep s k v a v' -> v_closed v = true -> v_closed v' = true.
Proof. intros s k v a v' H E. destruct H; fields_in; congruence || reflexivity. Qed.
Lemma vstep_flight : forall s k v a v', vstep s k v a v' -> v_closed v = true -> y_main s <> MSpawn k ->
  (v_handlers v' + in_flight v' <= v_handlers v + in_flight v)%nat.
Proof.
  intros s k v a v' H E Hm. destruct H as [a|Hm'|Hm'|Hm'|Hl|Hl|Hl|e Hl|Hl Hc _|Hl|h Hh|e Hm' Hl]; unfold in_flight; fields_in; try rewrite Hl; try lia; try congruence.
  - destruct (v_shutdown v); lia.
  - destruct (y_silent s); lia.
Qed.
Lemma vstep_idle : forall s k v a v', vstep s k v a v' -> v_loop v' = LIdle -> v_loop v = LIdle.
Proof. intros s k v a v' H E. destruct H; fields_in; try congruence; [destruct (v_shutdown v); discriminate|destruct (y_silent s); discriminate]. Qed.
Lemma idle_stays : forall s k v a v', vstep s k v a v' -> v_loop v = LIdle -> v_loop v' = LIdle \/ (y_main s = MSpawn k /\ a = AMain).
Proof. intros s k v a v' H E. destruct H; fields_in; try congruence; auto. Qed.
Lemma counts_step : forall s a s', Counts s -> do a s = Some s' -> Counts s'.
Proof.
  intros s a s' HC H k v' Hv'. pose proof (do_main s a s' H) as HM. destruct (do_srv s a s' k v' H Hv') as (v & Hv & HV).
  destruct (HC k v Hv) as (A & Bc & Cw & D).
  assert (L : (k < List.length (y_srvs s))%nat) by (apply nth_error_Some; congruence).
  assert (A' : v_wg v' = (v_handlers v' + counted v')%nat).
  { apply (vstep_counts s k v a v' HV A). intros Hm. apply D. exists k. auto. }
  split; [exact A'|]. split; [|split].
  - intros Hc. destruct (closed_step s a _ k HM Hc L) as [Hs|[Hs ->]].
    + apply (vstep_closed s k v a v' HV). exact (Bc Hs).
    + cbn [do] in H. unfold main_step in H. rewrite Hs in H. destruct (Nat.ltb_spec k (List.length (y_srvs s))) as [_|L']; [|lia]. injection H as <-.
      cbn [set_main upd_srv y_srvs] in Hv'. rewrite upd_nth, Nat.eqb_refl, Hv in Hv'. injection Hv' as <-. reflexivity.
  - intros Hc. destruct (waited_step s a _ k v HM Hc Hv) as [Hs|(Hs & -> & Hw)].
    + assert (Hn : y_main s <> MSpawn k) by (intros E; rewrite E in Hs; exact Hs).
      pose proof (vstep_flight s k v a v' HV (Bc (waited_closed _ _ Hs)) Hn). specialize (Cw Hs). lia.
    + assert (Hn : y_main s <> MSpawn k) by congruence. assert (Hcl : v_closed v = true) by (apply Bc; rewrite Hs; exact I).
      pose proof (vstep_flight s k v AMain v' HV Hcl Hn) as HF. rewrite Hw in A. unfold in_flight in *. unfold counted in A. destruct (v_loop v); lia.
  - split.
    + intros E. pose proof (vstep_idle s k v a v' HV E) as E0. destruct (proj1 D E0) as (i & Hi & Hk). 
      destruct HM as [a N1 N2 N3|j Hj Lj|j Hj Lj|j Hj _|j Hj _|j u Hj _ _|j Hj _|j Hj _|j Hj _|j u Hj _ _|j Hj _|Hj|j u e Hj _ _|j e Hj _]; try (exfalso; congruence).
      * exists i. auto.
      * assert (j = i) by congruence. subst j. exists (S i). split; [reflexivity|]. destruct (Nat.eq_dec i k) as [->|]; [|lia]. exfalso.
        cbn [do] in H. unfold main_step in H. rewrite Hi in H. destruct (Nat.ltb_spec k (List.length (y_srvs s))) as [_|L']; [|lia]. injection H as <-.
        cbn [set_main upd_srv y_srvs] in Hv'. rewrite upd_nth, Nat.eqb_refl, Hv in Hv'. injection Hv' as <-. discriminate.
      * exfalso. assert (j = i) by congruence. subst j. lia.
    + intros (i & Hi & Hk).
      destruct HM as [a N1 N2 N3|j Hj Lj|j Hj Lj|j Hj _|j Hj _|j u Hj _ _|j Hj _|j Hj _|j Hj _|j u Hj _ _|j Hj _|Hj|j u e Hj _ _|j e Hj _]; try discriminate.
      * destruct (idle_stays s k v a v' HV) as [E|[_ E]]; [apply D; exists i; auto|exact E|contradiction].
      * injection Hi as <-. destruct (idle_stays s k v AMain v' HV) as [E|[E _]]; [apply D; exists j; split; [exact Hj|lia]|exact E|].
        exfalso. assert (j = k) by congruence. lia.
      * destruct e; discriminate.
      * destruct e; discriminate.
Qed.
Lemma counts_start : forall ds stops, Counts (sys_start ds stops).
Proof.
  intros ds stops k v Hv. cbn [sys_start y_srvs] in Hv. rewrite nth_error_map in Hv. destruct (nth_error ds k) as [d|]; [|discriminate]. injection Hv as <-.
  cbn. split; [reflexivity|]. split; [intros []|]. split; [intros []|]. split; [|reflexivity]. intros _. exists 0%nat. split; [reflexivity|lia].
Qed.
Lemma counts_possible : forall ds stops s, Possible ds stops s -> Counts s.
Proof. intros ds stops s H. exact (reaches_inv Counts counts_step _ _ H (counts_start ds stops)). Qed.

Theorem at_most_one : forall ds stops s v, Possible ds stops s -> Stopped s -> In v (y_srvs s) ->
  v_closed v = true /\ (v_handlers v + in_flight v <= 1)%nat.
Proof.
  intros ds stops s v H HS Hi. apply In_nth_error in Hi. destruct Hi as (k & Hk). destruct (counts_possible ds stops s H k v Hk) as (_ & H1 & H2 & _).
  split; [apply H1|apply H2]; destruct HS as [ -> | -> ]; exact I.
Qed.
(* nothing in flight when all sockets are closed *)
Definition Still (s : sys) : Prop := (exists i, y_main s = MStopWait i) \/ Stopped s.
Definition Calm (s : sys) : Prop := Still s /\ forall k v, nth_error (y_srvs s) k = Some v ->
  v_closed v = true /\ in_flight v = 0%nat /\ (waited_upto (y_main s) k -> v_handlers v = 0%nat).
Lemma calm_step : forall s a s', Counts s -> Calm s -> do a s = Some s' -> Calm s'.
Proof.
  intros s a s' HC [HS HA] H. pose proof (do_main s a s' H) as HM. split.
  - unfold Still, Stopped in *. destruct HM as [a N1 N2 N3|j Hj Lj|j Hj Lj|j Hj _|j Hj _|j u Hj _ _|j Hj _|j Hj _|j Hj _|j u Hj _ _|j Hj _|Hj|j u e Hj _ _|j e Hj _];
      try exact HS; try (exfalso; destruct HS as [[i E]|[E|E]]; congruence); eauto.
  - intros k v' Hv'. destruct (do_srv s a s' k v' H Hv') as (v & Hv & HV). destruct (HA k v Hv) as (A1 & A2 & A3).
    assert (Hn : y_main s <> MSpawn k) by (intros E; destruct HS as [[i E']|[E'|E']]; congruence).
    pose proof (vstep_flight s k v a v' HV A1 Hn) as HF.
    assert (F0 : in_flight v' = 0%nat).
    { clear HF. destruct HV as [a|Hm'|Hm'|Hm'|Hl|Hl|Hl|e Hl|Hl Hc _|Hl|h Hh|e Hm' Hl]; unfold in_flight in *; fields_in; try exact A2; try reflexivity; try congruence.
      - destruct (v_shutdown v); reflexivity.
      - rewrite Hl in A2. discriminate.
      - destruct (y_silent s); reflexivity. }
    split; [exact (vstep_closed s k v a v' HV A1)|]. split; [exact F0|].
    intros Hw. destruct (waited_step s a _ k v HM Hw Hv) as [Hs|(Hs & -> & Hz)].
    + specialize (A3 Hs). lia.
    + destruct (HC k v Hv) as (A & _). lia.
Qed.
Theorem calm_stop : forall ds stops s, Possible ds stops s -> y_main s = MStopWait 0 -> (forall v, In v (y_srvs s) -> in_flight v = 0%nat) ->
  forall s', Reaches s s' -> Stopped s' -> forall v, In v (y_srvs s') -> Quiet v.
Proof.
  intros ds stops s HP Hm HF s' HR HS v Hi.
  assert (K : Counts s' /\ Calm s').
  { apply (reaches_inv (fun s => Counts s /\ Calm s)) with (s := s); [|exact HR|].
    - intros t a t' [H1 H2] H. split; [exact (counts_step t a t' H1 H)|exact (calm_step t a t' H1 H2 H)].
    - pose proof (counts_possible ds stops s HP) as HC. split; [exact HC|]. split; [left; exists 0%nat; exact Hm|].
      intros k u Hu. destruct (HC k u Hu) as (_ & H1 & _). split; [apply H1; rewrite Hm; exact I|]. split; [exact (HF u (nth_error_In _ _ Hu))|]. rewrite Hm. cbn. lia. }
  destruct K as [_ [_ K]]. apply In_nth_error in Hi. destruct Hi as (k & Hk). destruct (K k v Hk) as (K1 & K2 & K3). split; [|split; assumption].
  apply K3. destruct HS as [ -> | -> ]; exact I.
Qed.
