(* indi.go:43-62, 111-193: an application from the call of Serve to its return, with its hooks,
   and Serve being called again.  The goroutines of a run are those of M_Server.v. *)
From Verif Require Import M_Base M_App M_Server.

(* indi.go:201-205 with 207-211: the calls of hooks.  A hook that is not set is one that does
   nothing; [hk_*]: the calls of Stop and GracefulStop a hook makes, in order; whatever else it
   does is its own affair. *)
Inductive hook := HBind (addr : bytes) | HStart | HStop.
Record hooks := Hooks { hk_bind : bytes -> list serr; hk_start : list serr; hk_stop : list serr }.
Definition hook_calls (hs : hooks) (h : hook) : list serr :=
  match h with HBind addr => hk_bind hs addr | HStart => hk_start hs | HStop => hk_stop hs end.

(* where the goroutine that called Serve is: *)
Inductive phase :=
| FBind (todo : list source)    (* indi.go:129-146: in the loop of bind *)
| FRun                          (* in run *)
| FOver (r : option serr).      (* returned: None is the error of a listener, Some that of run *)
(* [f_sends]: the calls of Stop and GracefulStop the running hook has to make (183-193): the
   goroutine waits in the first for somebody to receive.  [f_err]: what run received (167).
   [f_sys]: the goroutines of this run and the calls of Stop and GracefulStop by others;
   [f_old]: what is left of earlier runs.  [f_log]: the hooks called since Serve was called. *)
Record life := Life { f_phase : phase; f_sends : list serr; f_err : option serr; f_sys : sys; f_old : list sys; f_log : list hook }.

(* a hook is called *)
Definition call_hook (hs : hooks) (h : hook) (p : phase) (s : sys) (l : life) : life :=
  Life p (hook_calls hs h) (f_err l) s (f_old l) (f_log l ++ [h]).
Definition set_phase (p : phase) (l : life) : life := Life p (f_sends l) (f_err l) (f_sys l) (f_old l) (f_log l).
Definition set_fsys (s : sys) (l : life) : life := Life (f_phase l) (f_sends l) (f_err l) s (f_old l) (f_log l).
Definition set_err (e : serr) (l : life) : life := Life (f_phase l) (f_sends l) (Some e) (f_sys l) (f_old l) (f_log l).

Inductive lact :=
| KServe                    (* Serve is called, nobody being in it *)
| KBind (r : option bool)   (* indi.go:130: listening fails, or gives a listener (with SetDeadline or not) *)
| KMain                     (* another step of the goroutine that called Serve *)
| KRun (a : act)            (* a step of another goroutine of this run, or run receives from one *)
| KOld (k : nat) (a : act)  (* a step of a goroutine of an earlier run *)
| KTakeOld (k i : nat).     (* run receives from server i of an earlier run: the channel is the same (24, 31) *)

Definition waiting (c : call) : bool := match c with CBack => false | _ => true end.
(* what run receives from whom *)
Definition received (a : act) (s : sys) : option serr :=
  match a with
  | ATakeLoop i => match nth_error (y_srvs s) i with Some v => match v_loop v with LSend e => Some e | _ => None end | None => None end
  | ATakeCall j => match nth_error (y_calls s) j with Some (CSend e) => Some e | _ => None end
  | _ => None
  end.
Definition ldo (srcs : list source) (hs : hooks) (a : lact) (l : life) : option life :=
  match a with
  | KServe =>
      match f_phase l with
      | FOver _ => Some (Life (FBind srcs) [] None (Sys (MSpawn 0) false [] (filter waiting (y_calls (f_sys l)))) (f_old l ++ [f_sys l]) [])
      | _ => None
      end
  | KBind r =>
      match f_phase l, f_sends l with
      | FBind (src :: todo), [] =>
          match r with
          | None => Some (set_phase (FOver None) l)
          | Some d => Some (call_hook hs (HBind (so_addr src)) (FBind todo)
                              (Sys (y_main (f_sys l)) (y_silent (f_sys l)) (y_srvs (f_sys l) ++ [new_srv d]) (y_calls (f_sys l))) l)
          end
      | _, _ => None
      end
  | KMain =>
      match f_phase l, f_sends l with
      | FBind [], [] => Some (set_phase FRun l)
      | FRun, [] =>
          match y_main (f_sys l) with
          | MRet => Some (set_phase (FOver (f_err l)) l)
          | MSpawn i => match do AMain (f_sys l) with
                        | Some s => if Nat.ltb i (List.length (y_srvs (f_sys l))) then Some (set_fsys s l) else Some (call_hook hs HStart FRun s l)
                        | None => None
                        end
          | MHook => match do AMain (f_sys l) with Some s => Some (call_hook hs HStop FRun s l) | None => None end
          | _ => match do AMain (f_sys l) with Some s => Some (set_fsys s l) | None => None end
          end
      | _, _ => None
      end
  | KRun AMain => None
  | KRun a =>
      match do a (f_sys l) with
      | None => None
      | Some s => match received a (f_sys l) with
                  | None => Some (set_fsys s l)
                  | Some e => match f_phase l, f_sends l with FRun, [] => Some (set_err e (set_fsys s l)) | _, _ => None end
                  end
      end
  | KOld k a =>
      match a, nth_error (f_old l) k with
      | AMain, _ | ATakeLoop _, _ | ATakeCall _, _ | ACall _, _ => None
      | _, Some s => match do a s with
                     | Some s' => Some (Life (f_phase l) (f_sends l) (f_err l) (f_sys l) (upd (f_old l) k (fun _ => s')) (f_log l))
                     | None => None
                     end
      | _, None => None
      end
  | KTakeOld k i =>
      match f_phase l, f_sends l, y_main (f_sys l), nth_error (f_old l) k with
      | FRun, [], MRecv, Some s =>
          match received (ATakeLoop i) s with
          | Some e => Some (set_err e (Life FRun [] (f_err l) (set_main (after e) (f_sys l)) (upd (f_old l) k (upd_srv i (set_loop LEnd))) (f_log l)))
          | None => None
          end
      | _, _, _, _ => None
      end
  end.
Fixpoint lacts (srcs : list source) (hs : hooks) (al : list lact) (l : life) : option life :=
  match al with
  | [] => Some l
  | a :: al' => match ldo srcs hs a l with Some l' => lacts srcs hs al' l' | None => None end
  end.
(* an application that was made, and calls of Stop or GracefulStop by other goroutines that may
   come at any time *)
Definition life_start (stops : list serr) : life := Life (FOver None) [] None (Sys MRet false [] (map CNew stops)) [] [].
