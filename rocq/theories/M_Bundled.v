(* router/inbuilt/middleware: the bundled middlewares, as functions on handlers of the router.
   The redirect HTTPSOnly builds is in M_Middleware.v. *)
From Verif Require Import M_Base M_Status M_Method M_Proto M_KeyValue M_Escape M_Request M_Client M_Body
  M_Response M_Suit M_Router M_Middleware.

(* calling the next handler and going on with what it returned *)
Fixpoint hbind {W} (p : hprog W) (k : option fields -> W -> hprog W) : hprog W :=
  match p with
  | HRet resp w => k resp w
  | HBody op c => HBody op (fun o => hbind (c o) k)
  | HUpdate g c => HUpdate g (hbind c k)
  | HHijack c => HHijack (fun e => hbind (c e) k)
  | HConnRead c => HConnRead (fun x => hbind (c x) k)
  | HConnWrite d c => HConnWrite d (fun ok => hbind (c ok) k)
  | HCrash => HCrash
  | HTry p q c => HTry p q (fun resp w => hbind (c resp w) k)
  | HLook c => HLook (fun r => hbind (c r) k)
  end.

(* customcontext.go:9-15 *)
Definition custom_context {W} (ctx : list pair_t) : middleware W :=
  fun next w r => HUpdate (set_ctx ctx) (next w (set_ctx ctx r)).
(* httpsonly.go:23-51 *)
Definition https_only_mw {W} (redirect_to port : bytes) : middleware W :=
  fun next w r => match https_only redirect_to port r with Some f => HRet (Some f) w | None => next w r end.
(* redirect.go:9-19 *)
Definition redirect {W} (from to : bytes) : middleware W :=
  fun next w r =>
    if beqb (r_path r) from then HRet (resp_header (B "Location") [to] (set_code 307%N new_response)) w
    else next w r.
(* serverheader.go:11-21; the receiver of Header may be nil *)
Fixpoint join_spaces (l : list bytes) : bytes :=
  match l with
  | [] => []
  | [s] => s
  | s :: l' => s ++ B " " ++ join_spaces l'
  end.
Definition server_header {W} (custom : list bytes) : middleware W :=
  let value := match join_spaces custom with [] => B "indigo" | v => v end in
  fun next w r =>
    hbind (next w r) (fun resp w' =>
      match resp with
      | None => HCrash
      | Some f => HRet (resp_header (B "Server") [value] f) w'
      end).
(* logging.go:14-31.  [loggers]: what a line does to what the application shares; the time
   stamp of package log is left out.  Reveal on a nil response panics. *)
Definition log_line (r : request) (c : code) : bytes :=
  method_string (r_method r) ++ B " " ++ escape (r_path r) ++ B " " ++ itoa_N c.
Definition log_requests {W} (loggers : list (bytes -> W -> W)) : middleware W :=
  fun next w r =>
    hbind (next w r) (fun resp w' =>
      match resp with
      | None => HCrash
      | Some f =>
          if (f_code f =? 439)%N then HRet resp w'
          else HLook (fun r' => HRet resp (fold_left (fun v l => l (log_line r' (f_code f)) v) loggers (fst w'), snd w'))
      end).
(* recover.go:11-21; what it logs is left out *)
Definition recovering {W} : middleware W :=
  fun next w r => HTry (next w r) (HRet (Some (resp_error (Some (EHttp ErrInternalServerError)) [] new_response)) w) HRet.
