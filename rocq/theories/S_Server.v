(* Specification of stopping. *)
From Verif Require Import M_Base M_Server.

Definition Reaches (s s' : sys) : Prop := exists l, acts l s = Some s'.
(* every state of every execution *)
Definition Possible (ds : list bool) (stops : list serr) (s : sys) : Prop := Reaches (sys_start ds stops) s.
(* OnStop is being called, or was *)
Definition Stopped (s : sys) : Prop := y_main s = MHook \/ y_main s = MRet.
(* App.run has its reason to stop *)
Definition Told (s : sys) : Prop := (forall i, y_main s <> MSpawn i) /\ y_main s <> MRecv.
(* a connection accepted but not counted or not served yet *)
Definition in_flight (v : srv) : nat := match v_loop v with LAdd | LGo => 1 | _ => 0 end.
(* nobody is served and nobody will *)
Definition Quiet (v : srv) : Prop := v_handlers v = 0%nat /\ in_flight v = 0%nat /\ v_closed v = true.
Definition NotClient (a : act) : Prop := forall i, a <> AClient i.
(* some call of Stop or GracefulStop has returned *)
Definition ByCall (s : sys) : Prop := exists j, nth_error (y_calls s) j = Some CBack.
(* the goroutine of a server is over; it waits for somebody to take its error *)
Definition Ended (v : srv) : Prop := v_loop v = LEnd.
Definition Sends (v : srv) : Prop := exists e, v_loop v = LSend e.
(* no goroutine of a server can do anything *)
Definition LoopsRest (s : sys) : Prop := forall i, do (ALoop i) s = None /\ do (AClient i) s = None /\ do (AFail i) s = None.
(* Pause was called for server k in this round of App.run *)
Definition Paused (s : sys) (k : nat) : Prop := (exists i, y_main s = MPause i /\ (k < i)%nat) \/ exists i, y_main s = MPauseWait i.
(* the clients server k accepts during these steps *)
Fixpoint accepted (k : nat) (l : list act) : nat :=
  match l with
  | [] => 0
  | AClient i :: l' => (if Nat.eqb i k then 1 else 0) + accepted k l'
  | _ :: l' => accepted k l'
  end.
