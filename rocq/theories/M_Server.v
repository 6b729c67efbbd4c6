(* indi.go:151-193 with internal/tcp/server.go: an application that is running and stopping.
   Every step below is one operation on something shared; goroutines take steps in any
   order. *)
From Verif Require Import M_Base.

(* the errors on the channel: ErrGracefulShutdown, ErrShutdown, an error of Accept, nil *)
Inductive serr := SGraceful | SShutdown | SAccept | SNil.

(* server.go:33-49 and indi.go:155-163: where the goroutine of a server is *)
Inductive lpc :=
| LIdle              (* not started yet *)
| LLoad              (* server.go:38 *)
| LAccept            (* server.go:39: inside Accept *)
| LAdd               (* server.go:44: has a new connection *)
| LGo                (* server.go:45: counted it *)
| LSwap (e : serr)   (* indi.go:158: Start returned e *)
| LSend (e : serr)   (* indi.go:162 *)
| LEnd.
(* server.go:16-21.  [v_deadliner]: the listener has SetDeadline; [v_deadline]: it was called;
   [v_handlers]: the connHandler goroutines (72-76) that have not called Done yet *)
Record srv := Srv { v_loop : lpc; v_closed : bool; v_deadliner : bool; v_deadline : bool; v_shutdown : bool; v_wg : nat; v_handlers : nat }.
Definition set_loop l v := Srv l (v_closed v) (v_deadliner v) (v_deadline v) (v_shutdown v) (v_wg v) (v_handlers v).
Definition set_closed v := Srv (v_loop v) true (v_deadliner v) (v_deadline v) (v_shutdown v) (v_wg v) (v_handlers v).
Definition set_wg n v := Srv (v_loop v) (v_closed v) (v_deadliner v) (v_deadline v) (v_shutdown v) n (v_handlers v).
Definition set_handlers n v := Srv (v_loop v) (v_closed v) (v_deadliner v) (v_deadline v) (v_shutdown v) (v_wg v) n.
(* server.go:58-65  Pause *)
Definition set_paused v := Srv (v_loop v) (v_closed v) (v_deadliner v) (v_deadliner v || v_deadline v) true (v_wg v) (v_handlers v).

(* where App.run is (indi.go:151-177, with StopAll, PauseAll and WaitAll of server.go:78-98);
   i: the server the loop is at.  OnStart is left out: it does not touch anything here. *)
Inductive mpc := MSpawn (i : nat) | MRecv | MPause (i : nat) | MPauseWait (i : nat) | MStop (i : nat) | MStopWait (i : nat) | MHook | MRet.
(* indi.go:183-193: calls of GracefulStop and Stop by other goroutines *)
Inductive call := CNew (e : serr) | CSend (e : serr) | CBack.
Record sys := Sys { y_main : mpc; y_silent : bool; y_srvs : list srv; y_calls : list call }.

Fixpoint upd {A} (l : list A) (i : nat) (f : A -> A) : list A :=
  match l, i with
  | [], _ => []
  | x :: l', O => f x :: l'
  | x :: l', S j => x :: upd l' j f
  end.
Definition set_main m s := Sys m (y_silent s) (y_srvs s) (y_calls s).
Definition upd_srv i f s := Sys (y_main s) (y_silent s) (upd (y_srvs s) i f) (y_calls s).
Definition upd_call j c s := Sys (y_main s) (y_silent s) (y_srvs s) (upd (y_calls s) j (fun _ => c)).

(* indi.go:168-173 *)
Definition after (e : serr) : mpc := match e with SGraceful => MPause 0 | _ => MStop 0 end.

Inductive act :=
| AMain                  (* a step of App.run *)
| ALoop (i : nat)        (* a step of the goroutine of server i *)
| AClient (i : nat)      (* Accept of server i returns a connection *)
| AFail (i : nat)        (* Accept of server i returns an error, for whatever reason *)
| AHandler (i : nat)     (* a connection of server i is over *)
| ACall (j : nat)        (* call j comes to the send *)
| ATakeLoop (i : nat)    (* App.run receives from the goroutine of server i *)
| ATakeCall (j : nat).   (* App.run receives from call j *)

Definition main_step (s : sys) : option sys :=
  let n := List.length (y_srvs s) in
  match y_main s with
  | MSpawn i => if Nat.ltb i n then Some (set_main (MSpawn (S i)) (upd_srv i (set_loop LLoad) s)) else Some (set_main MRecv s)
  | MRecv => None
  | MPause i => if Nat.ltb i n then Some (set_main (MPause (S i)) (upd_srv i set_paused s)) else Some (set_main (MPauseWait 0) s)
  | MPauseWait i =>
      match nth_error (y_srvs s) i with
      | Some v => if Nat.eqb (v_wg v) 0 then Some (set_main (MPauseWait (S i)) s) else None
      | None => Some (set_main (MStop 0) s)
      end
  | MStop i => if Nat.ltb i n then Some (set_main (MStop (S i)) (upd_srv i set_closed s)) else Some (set_main (MStopWait 0) s)
  | MStopWait i =>
      match nth_error (y_srvs s) i with
      | Some v => if Nat.eqb (v_wg v) 0 then Some (set_main (MStopWait (S i)) s) else None
      | None => Some (set_main MHook s)
      end
  | MHook => Some (set_main MRet s)
  | MRet => None
  end.
Definition do (a : act) (s : sys) : option sys :=
  match a with
  | AMain => main_step s
  | ALoop i =>
      match nth_error (y_srvs s) i with
      | None => None
      | Some v =>
          match v_loop v with
          | LLoad => Some (upd_srv i (set_loop (if v_shutdown v then LSwap SNil else LAccept)) s)
          | LAdd => Some (upd_srv i (fun v => set_wg (S (v_wg v)) (set_loop LGo v)) s)
          | LGo => Some (upd_srv i (fun v => set_handlers (S (v_handlers v)) (set_loop LLoad v)) s)
          | LSwap e =>
              Some (upd_srv i (set_loop (if y_silent s then LEnd else LSend e)) (Sys (y_main s) true (y_srvs s) (y_calls s)))
          | _ => None
          end
      end
  | AClient i =>
      match nth_error (y_srvs s) i with
      | None => None
      | Some v => match v_loop v with
                  | LAccept => if v_closed v || v_deadline v then None else Some (upd_srv i (set_loop LAdd) s)
                  | _ => None
                  end
      end
  | AFail i =>
      match nth_error (y_srvs s) i with
      | None => None
      | Some v => match v_loop v with LAccept => Some (upd_srv i (set_loop (LSwap SAccept)) s) | _ => None end
      end
  | AHandler i =>
      match nth_error (y_srvs s) i with
      | None => None
      | Some v => match v_handlers v with
                  | O => None
                  | S h => Some (upd_srv i (fun v => set_wg (pred (v_wg v)) (set_handlers h v)) s)
                  end
      end
  | ACall j =>
      match nth_error (y_calls s) j with Some (CNew e) => Some (upd_call j (CSend e) s) | _ => None end
  | ATakeLoop i =>
      match y_main s, nth_error (y_srvs s) i with
      | MRecv, Some v => match v_loop v with LSend e => Some (set_main (after e) (upd_srv i (set_loop LEnd) s)) | _ => None end
      | _, _ => None
      end
  | ATakeCall j =>
      match y_main s, nth_error (y_calls s) j with
      | MRecv, Some (CSend e) => Some (set_main (after e) (upd_call j CBack s))
      | _, _ => None
      end
  end.
Fixpoint acts (l : list act) (s : sys) : option sys :=
  match l with
  | [] => Some s
  | a :: l' => match do a s with Some s' => acts l' s' | None => None end
  end.
(* App.run is entered: one server for each element of [ds] (whether its listener has
   SetDeadline), and calls of Stop or GracefulStop that may come at any time *)
Definition new_srv (d : bool) : srv := Srv LIdle false d false false 0 0.
Definition sys_start (ds : list bool) (stops : list serr) : sys := Sys (MSpawn 0) false (map new_srv ds) (map CNew stops).
