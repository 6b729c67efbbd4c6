(* C42 and C43: stopping. *)
From Verif Require Import M_Base M_Server S_Server L_Server L_Server2.

(* C42: OnStop runs and a connection is served afterwards.  The client was accepted before
   the listener was closed but counted only after Wait saw the counter at zero. *)
Definition late_client : list act :=
  [AMain; AMain; ALoop 0; AClient 0; ACall 0; ATakeCall 0; AMain; AMain; AMain; AMain; AMain; ALoop 0; ALoop 0].
Theorem C42_refuted : exists ds stops s v, Possible ds stops s /\ y_main s = MRet /\ In v (y_srvs s) /\ v_handlers v = 1%nat.
Proof.
  exists [true], [SShutdown]. eexists _, _. split; [exists late_client; vm_compute; reflexivity|]. split; [reflexivity|]. split; [left; reflexivity|reflexivity].
Qed.
Print Assumptions C42_refuted.
(* the same after GracefulStop *)
Definition late_client_graceful : list act :=
  [AMain; AMain; ALoop 0; AClient 0; ACall 0; ATakeCall 0; AMain; AMain; AMain; AMain; AMain; AMain; AMain; AMain; AMain; ALoop 0; ALoop 0].
Theorem C42_graceful_refuted : exists ds s v, Possible ds [SGraceful] s /\ y_main s = MRet /\ In v (y_srvs s) /\ v_handlers v = 1%nat.
Proof.
  exists [true]. eexists _, _. split; [exists late_client_graceful; vm_compute; reflexivity|]. split; [reflexivity|]. split; [left; reflexivity|reflexivity].
Qed.
Print Assumptions C42_graceful_refuted.
(* it is never more than one client for each listener, and every listener is closed *)
Theorem C42_at_most_one_partial : forall ds stops s v, Possible ds stops s -> Stopped s -> In v (y_srvs s) ->
  v_closed v = true /\ (v_handlers v + in_flight v <= 1)%nat.
Proof. exact at_most_one. Qed.
Print Assumptions C42_at_most_one_partial.
(* none, if no server is between Accept and the counter when the last listener was closed.
   Missing: the case of C42_refuted. *)
Theorem C42_quiet_partial : forall ds stops s, Possible ds stops s -> y_main s = MStopWait 0 -> (forall v, In v (y_srvs s) -> in_flight v = 0%nat) ->
  forall s', Reaches s s' -> Stopped s' -> forall v, In v (y_srvs s') -> Quiet v.
Proof. exact calm_stop. Qed.
Print Assumptions C42_quiet_partial.
(* GracefulStop: once it paused a server, that server accepts nobody any more, or at most one
   more client if its listener cannot be given a deadline *)
Theorem C42_paused : forall ds stops s k v l s', Possible ds stops s -> Paused s k -> nth_error (y_srvs s) k = Some v -> acts l s = Some s' ->
  (accepted k l <= if v_deadliner v then 0 else 1)%nat.
Proof. exact paused_accepts. Qed.
Print Assumptions C42_paused.
(* a listener without a deadline accepts one more client, which is served while paused; then
   its goroutine leaves the loop *)
Definition one_more : list act := [AMain; AMain; ALoop 0; ACall 0; ATakeCall 0; AMain; AMain].
Example C42_paused_example : exists s s', acts one_more (sys_start [false] [SGraceful]) = Some s /\ Paused s 0 /\
  acts [AClient 0; ALoop 0; ALoop 0; ALoop 0] s = Some s' /\ map v_loop (y_srvs s') = [LSwap SNil] /\ map v_handlers (y_srvs s') = [1%nat] /\ do AMain s' = None.
Proof. eexists _, _. split; [vm_compute; reflexivity|]. split; [right; eexists; reflexivity|]. repeat split. Qed.
(* two listeners, one client each; the clients are waited for *)
Definition served_then_stopped : list act :=
  [AMain; AMain; AMain; ALoop 0; ALoop 1; AClient 0; AClient 1; ALoop 0; ALoop 0; ALoop 1; ALoop 1; ACall 0; ATakeCall 0; AMain; AMain; AMain].
Example C42_example : exists s s', acts served_then_stopped (sys_start [true; false] [SShutdown]) = Some s /\ y_main s = MStopWait 0
  /\ map v_handlers (y_srvs s) = [1%nat; 1%nat] /\ do AMain s = None
  /\ acts [AHandler 1; AHandler 0; AMain; AMain; AMain] s = Some s' /\ Stopped s' /\ map v_handlers (y_srvs s') = [0%nat; 0%nat].
Proof. eexists _, _. split; [vm_compute; reflexivity|]. repeat split; try (vm_compute; reflexivity). left. reflexivity. Qed.

(* C43: two goroutines call Stop; whatever happens next, the second never returns *)
Definition two_stops : list act := [AMain; AMain; ACall 0; ACall 1; ATakeCall 0].
Theorem C43_refuted : exists s, Possible [true] [SShutdown; SShutdown] s /\ nth_error (y_calls s) 0 = Some CBack /\
  forall s', Reaches s s' -> nth_error (y_calls s') 1 = Some (CSend SShutdown).
Proof.
  eexists. split; [exists two_stops; vm_compute; reflexivity|]. split; [reflexivity|]. intros s' HR. refine (late_call _ _ _ _ _ _ HR); [|reflexivity]. split; discriminate.
Qed.
Print Assumptions C43_refuted.
(* in general: a call that has not returned when App.run has its reason to stop never does *)
Theorem C43_late_call : forall s s' j e, Told s -> nth_error (y_calls s) j = Some (CNew e) \/ nth_error (y_calls s) j = Some (CSend e) ->
  Reaches s s' -> nth_error (y_calls s') j <> Some CBack.
Proof.
  intros s s' j e HT [H|H] HR; [exact (late_call_new s s' j e HT H HR)|]. rewrite (late_call s s' j e HT H HR). discriminate.
Qed.
Print Assumptions C43_late_call.
(* whenever Stop or GracefulStop returned, the goroutine of some server is not over, then and
   at any later time *)
Theorem C43_leaks : forall ds stops s, ds <> [] -> Possible ds stops s -> ByCall s -> exists k v, nth_error (y_srvs s) k = Some v /\ ~ Ended v.
Proof. exact stays. Qed.
Print Assumptions C43_leaks.
(* it is exactly one: it waits for ever in the send *)
Theorem C43_leak_one : forall ds stops s, ds <> [] -> Possible ds stops s -> ByCall s -> LoopsRest s ->
  exists k, (exists v, nth_error (y_srvs s) k = Some v /\ Sends v) /\ forall k' v', k' <> k -> nth_error (y_srvs s) k' = Some v' -> Ended v'.
Proof. exact rest_by_call. Qed.
Print Assumptions C43_leak_one.
(* if a listener was the reason to stop, none stays.  Missing: the other reasons. *)
Theorem C43_failure_partial : forall ds stops s, Possible ds stops s -> Told s -> ~ ByCall s -> LoopsRest s -> forall k v, nth_error (y_srvs s) k = Some v -> Ended v.
Proof. exact rest_by_listener. Qed.
Print Assumptions C43_failure_partial.
(* App.run returns: without new clients only so many steps are possible, and where no step
   is possible App.run has returned.  Missing: clients that keep coming before the listeners
   are closed. *)
Theorem C43_returns_partial : forall ds stops s, Possible ds stops s -> Told s ->
  exists bound, forall l s', Forall NotClient l -> acts l s = Some s' ->
    (List.length l <= bound)%nat /\ ((forall a t, NotClient a -> do a s' = Some t -> False) -> y_main s' = MRet).
Proof. exact returns. Qed.
Print Assumptions C43_returns_partial.
(* once they are closed this needs no assumption *)
Theorem C43_closed_returns : forall ds stops s, Possible ds stops s -> (exists i, y_main s = MStopWait i) \/ y_main s = MHook \/ y_main s = MRet ->
  exists bound, forall l s', acts l s = Some s' -> (List.length l <= bound)%nat /\ ((forall a, do a s' = None) -> y_main s' = MRet).
Proof. exact returns_closed. Qed.
Print Assumptions C43_closed_returns.
(* two listeners, one fails: both goroutines end *)
Definition one_fails : list act :=
  [AMain; AMain; AMain; ALoop 0; ALoop 1; AFail 1; ALoop 1; ATakeLoop 1; AMain; AMain; AMain; AMain; AMain; AMain; AMain; AFail 0; ALoop 0].
Example C43_example : exists s, acts one_fails (sys_start [true; true] []) = Some s /\ y_main s = MRet /\ map v_loop (y_srvs s) = [LEnd; LEnd].
Proof. eexists. split; [vm_compute; reflexivity|]. split; reflexivity. Qed.
(* one listener, stopped by a call: Serve returned, its goroutine waits in the send *)
Definition stop_leaks : list act := [AMain; AMain; ALoop 0; ACall 0; ATakeCall 0; AMain; AMain; AMain; AMain; AMain; AFail 0; ALoop 0].
Example C43_leak_example : exists s, acts stop_leaks (sys_start [true] [SShutdown]) = Some s /\ y_main s = MRet /\ map v_loop (y_srvs s) = [LSend SAccept].
Proof. eexists. split; [vm_compute; reflexivity|]. split; reflexivity. Qed.
