(* Specification of the life of an application. *)
From Verif Require Import M_Base M_App M_Server M_Life S_Server.

Definition binds (srcs : list source) : list hook := map (fun s => HBind (so_addr s)) srcs.
(* all hooks of one Serve, in order *)
Definition all_hooks (srcs : list source) : list hook := binds srcs ++ [HStart; HStop].
(* every state of every execution *)
Definition Lives (srcs : list source) (hs : hooks) (stops : list serr) (al : list lact) (l : life) : Prop :=
  lacts srcs hs al (life_start stops) = Some l.
(* Serve is called at most once in these steps *)
Fixpoint serves (al : list lact) : nat := match al with [] => 0 | KServe :: al' => S (serves al') | _ :: al' => serves al' end.
(* in one of the steps Accept of a listener failed *)
Definition AcceptFailed (al : list lact) : Prop := exists i, In (KRun (AFail i)) al.
(* run has not received anything yet *)
Definition Waits (l : life) : Prop := f_phase l = FRun /\ f_sends l = [] /\ y_main (f_sys l) = MRecv.
(* a goroutine of an earlier run hands its error to this one *)
Definition TakesOld (al : list lact) : Prop := exists k i, In (KTakeOld k i) al.
