(* indi.go: the sources of an application and how they are bound.  Concurrency is in
   M_Server.v. *)
From Verif Require Import M_Base M_Request.

(* internal/address/address.go:27-34  stripPort *)
Definition strip_port (addr : bytes) : bytes := match cut addr x3a with Some (h, _) => h | None => addr end.
(* address.go:10-17  Normalize *)
Definition norm_addr (addr : bytes) : bytes := match strip_port addr with [] => B "0.0.0.0" ++ addr | _ => addr end.

(* indi.go:213-222: how a source listens: net.Listen, tlsListener, autoTLSListener or the
   application's own function; its handler: newHTTPHandler with a token (195-199) or the
   application's own *)
Inductive lkind := LPlain | LTls (cert key : bytes) | LAuto (domains : list bytes) | LOwn (n : nat).
Inductive lhandler := Http (enc : enc_token) | Own (n : nat).
(* indi.go:224-227 *)
Record source := Source { so_addr : bytes; so_listen : lkind; so_handler : option lhandler }.

Section App.
(* what the system does: opening a socket (None: error), recognizing a local address
   (address.go:19-25, with net.ParseIP), making a certificate (None: error) *)
Variable Sock : Type.
Variable listen : lkind -> bytes -> option Sock.
Variable is_local : bytes -> bool.
Variable self_signed : option (bytes * bytes).

(* indi.go:65-77  Listen, the listener given as kind and handler *)
Definition app_listen (addr : bytes) (k : lkind) (h : option lhandler) (srcs : list source) : list source :=
  srcs ++ [Source (norm_addr addr) k h].
(* indi.go:79-84  HTTPS *)
Definition app_https (addr cert key : bytes) (srcs : list source) : list source :=
  app_listen addr (LTls cert key) (Some (Http enc_tls)) srcs.
(* indi.go:88-109  AutoHTTPS *)
Definition app_auto_https (addr : bytes) (domains : list bytes) (srcs : list source) : list source :=
  let addr := norm_addr addr in
  if is_local addr then
    match self_signed with
    | None => srcs
    | Some (cert, key) => app_https addr cert key srcs
    end
  else app_listen addr (LAuto domains) (Some (Http enc_tls)) srcs.
(* indi.go:28-35  New *)
Definition app_new (addr : bytes) : list source := app_listen addr LPlain None [].

(* internal/tcp/server.go:16-21, as far as bind sees it: the socket, and the function given to
   NewServer.  That function is a closure over the loop variable: go.mod says go 1.18, so there
   is one variable for all iterations, and the closure reads it when it is called. *)
Record bserver := BServer { bs_sock : Sock; bs_handler : source -> option lhandler }.
Inductive bound :=
| Bound (servers : list bserver) (var : source)     (* var: the loop variable after the loop *)
| BindFailed (opened : list Sock).                  (* the sockets opened before; nobody closes them *)
(* indi.go:135-137 *)
Definition fill_handler (src : source) : source :=
  match so_handler src with None => Source (so_addr src) (so_listen src) (Some (Http enc_plain)) | Some _ => src end.
(* indi.go:126-149  bind *)
Fixpoint bind_loop (srcs : list source) (var : source) (servers : list bserver) : bound :=
  match srcs with
  | [] => Bound servers var
  | src :: srcs' =>
      match listen (so_listen src) (so_addr src) with
      | None => BindFailed (map bs_sock servers)
      | Some sock =>
          let var := fill_handler src in
          bind_loop srcs' var (servers ++ [BServer sock (fun src => so_handler src)])
      end
  end.
Definition no_source : source := Source [] LPlain None.
Definition bind (srcs : list source) : bound := bind_loop srcs no_source [].
(* the handler a connection of the i-th server gets: servers are started after bind is over *)
Definition conn_handler (b : bound) (i : nat) : option lhandler :=
  match b with
  | Bound servers var => match nth_error servers i with Some s => bs_handler s var | None => None end
  | BindFailed _ => None
  end.
End App.
Arguments BServer {Sock}. Arguments bs_sock {Sock}. Arguments bs_handler {Sock}. Arguments Bound {Sock}. Arguments BindFailed {Sock}.
Arguments bind_loop {Sock}. Arguments bind {Sock}. Arguments conn_handler {Sock}.
