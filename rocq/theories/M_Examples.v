(* examples/: the applications that come with the framework, as lists of calls on a router. *)
From Verif Require Import M_Base M_Status M_Method M_Proto M_KeyValue M_Query M_Request M_Parser M_Client M_Body
  M_Response M_Serializer M_Suit M_Path M_Radix M_Router M_Static M_Bundled M_Tools M_Resource.

(* What the applications share: lines written with package log (time stamps left out), the
   buffer of the replacer of Static, and whether GracefulStop was called. *)
Record office := Office { of_log : list bytes; of_path : pbuf; of_stopped : bool }.
Definition log_println (l : bytes) (o : office) : office := Office (of_log o ++ [l]) (of_path o) (of_stopped o).
Definition with_path (b : pbuf) (o : office) : office := Office (of_log o) b (of_stopped o).
Definition graceful_stop (o : office) : office := Office (of_log o) (of_path o) true.
Notation site := (list (list nat * rop office)).

(* examples/helloworld/helloworld.go:14-19  MyHandler; 22-23 *)
Definition hello_handler : handler office := fun w r =>
  match resp_header (B "Hello") [B "world"] (set_code 200%N new_response) with
  | Some f => HRet (Some (set_rbody (B "<h1>Hello, world!</h1>") f)) w
  | None => HCrash   (* not reached *)
  end.
Definition helloworld : site := [([], router_call ShGet (B "/") hello_handler [])].

(* examples/dynroute/dynroute.go:14-18, 21-23 *)
Definition dynamic_handler : handler office := fun w r =>
  HRet (Some (set_rbody (B "your world-name is " ++ kv_value (r_params r) (B "world-name")) new_response)) w.
Definition dynroute : site := [([], router_call ShGet (B "/hello/{world-name}") dynamic_handler [])].

(* examples/middlewares/middlewares.go:14-34, 37-44 *)
Definition hello_world_middleware : middleware office := fun next w r =>
  hbind (next (log_println (B "running middleware before handler") (fst w), snd w) r)
        (fun resp w' => HRet resp (log_println (B "running middleware after handler") (fst w'), snd w')).
Definition second_middleware : middleware office := fun next w r =>
  hbind (next (log_println (B "running second middleware before first one") (fst w), snd w) r)
        (fun resp w' => HRet resp (log_println (B "running second middleware after first one") (fst w'), snd w')).
Definition beautiful_handler : handler office := fun w r =>
  HRet (Some new_response) (log_println (B "running handler") (fst w), snd w).
Definition middlewares : site :=
  [([], Group (B "/api")); ([0], Use [hello_world_middleware]); ([0], Group (B "/v1")); ([0; 0], Use [second_middleware]);
   ([0; 0], router_call ShGet (B "/hello") beautiful_handler [])]%nat.

(* examples/helloworld_norouter/helloworld.go:14-24: the application without a router *)
Definition norouter_handler (w : office) (r : request) : hprog office :=
  match resp_header (B "Hello") [B "world"] (set_code 200%N new_response) with
  | Some f => HRet (Some (set_rbody (B "<h1>How are you doing?</h1>") f)) w
  | None => HCrash   (* not reached *)
  end.
Definition norouter_errors (w : office) (r : request) : hprog office :=
  HRet (Some (resp_error (env_error (r_env r)) [] new_response)) w.

(* examples/connhijack/connhijack.go:15-34, 37-38.  strconv.Quote is left out.  [n]: a bound on the
   reads; the loop has none, but a connection with finitely many reads reaches an error. *)
Fixpoint hear (n : nat) (w : world office) : hprog (world office) :=
  match n with
  | O => HRet None w
  | S n' => HConnRead (fun '(data, err) =>
      match err with Some _ => HRet None w | None => hear n' (log_println (B "somebody says: " ++ data) (fst w), snd w) end)
  end.
Definition hijack_handler (n : nat) : handler office := fun w r =>
  HHijack (fun err => match err with Some _ => HRet (Some new_response) w | None => hear n w end).
Definition connhijack (n : nat) : site := [([], router_call ShGet (B "/") (hijack_handler n) [])].

(* examples/combined/combined.go.  [files]: the response http.File builds for a path. *)
Section Combined.
Variable files : bytes -> fields.
Variable body_error : bout -> bytes.   (* the text of other errors *)
(* 22-35  IndexSay *)
Definition index_say : handler office := fun w r =>
  if negb (beqb (kv_value (r_headers r) (B "talking")) (B "allowed"))
  then HRet (Some (set_code 451%N new_response)) w
  else HBody OBytes (fun o =>
    match o with
    | RBytes (BROk body) => HRet (Some new_response) (log_println (B "someone says: " ++ body) (fst w), snd w)
    | RBytes (BRErr BTooLarge) => HRet (Some (resp_error (Some (EHttp ErrBodyTooLarge)) [] new_response)) w
    | _ => HRet (Some (resp_error (Some (EOther (body_error o))) [] new_response)) w
    end).
(* 37-41  World *)
Definition world_page : handler office := fun w r => HRet (Some (set_rbody (B "<h1>Hello, world!</h1>") new_response)) w.
(* 43-52  Easter *)
Definition easter_page : handler office := fun w r =>
  if kv_has (r_headers r) (B "easter") then
    match resp_header (B "Easter") [B "Egg"] (set_code 418%N new_response) with
    | Some f => HRet (Some (set_rbody (B "You have discovered an easter egg! Congratulations!") f)) w
    | None => HCrash   (* not reached *)
    end
  else HRet (Some (set_rbody (B "Pretty ordinary page, isn't it?") new_response)) w.
(* 54-61  Stressful: the panic comes before the return, and Recover starts from a cleared response *)
Definition stressful : handler office := fun w r => HCrash.
(* 86-90; http.Code is http/response.go:238-240 *)
Definition shutdown : handler office := fun w r => HRet (Some (set_code 418%N new_response)) (graceful_stop (fst w), snd w).
(* 75-94; AutoHTTPS, OnBind and the read timeout are left out *)
Definition combined : option site :=
  match static_call (B "/static") (B "examples/combined/static") of_path with_path (fun _ => files) [] with
  | None => None
  | Some static =>
      Some [([], Use [log_requests [log_println]]); ([], Alias (B "/") (B "/static/index.html"));
            ([], Alias (B "/favicon.ico") (B "/static/favicon.ico")); ([], static);
            ([], router_call ShGet (B "/stress") stressful [recovering]);
            ([], resource_new (B "/")); ([0], router_call ShPost [] index_say []);
            ([], router_call ShPost (B "/shutdown") shutdown []);
            ([], Group (B "/hello")); ([1], router_call ShGet (B "/world") world_page []); ([1], router_call ShGet (B "/easter") easter_page [])]%nat
  end.
End Combined.
