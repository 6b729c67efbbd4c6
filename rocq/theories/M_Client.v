(* internal/tcp/client.go: the connection as the protocol code sees it. *)
From Verif Require Import M_Base.

(* errors of net.Conn.Read: io.EOF (the peer closed its side) or anything else (deadline,
   reset, ...; also a failing SetReadDeadline, client.go:43-45) *)
Inductive neterr := NEof | NOther.

(* client.go:17-22.  [cl_net] is what successive conn.Read calls will return, data and error;
   an exhausted list stands for an error.  [cl_out] is what conn.Write was given, call by
   call; [cl_wres] the outcomes of the coming writes: None for success, Some k for an error
   after k bytes went out; exhausted = success.  The deadline itself is not modelled. *)
Record client := Client {
  cl_net : list (bytes * option neterr);
  cl_pending : bytes;
  cl_out : list bytes;
  cl_wres : list (option nat)
}.
Definition new_client net wres : client := Client net [] [] wres.

(* client.go:35-50  Read *)
Definition client_read (c : client) : (bytes * option neterr) * client :=
  match cl_pending c with
  | [] => match cl_net c with
          | [] => (([], Some NOther), c)
          | ev :: net => (ev, Client net [] (cl_out c) (cl_wres c))
          end
  | p => ((p, None), Client (cl_net c) [] (cl_out c) (cl_wres c))
  end.
(* client.go:57-61  Unread: replaces what was pending *)
Definition client_unread (c : client) (d : bytes) : client :=
  Client (cl_net c) d (cl_out c) (cl_wres c).
(* client.go:68-73  Write; true = no error *)
Definition client_write (c : client) (d : bytes) : bool * client :=
  match cl_wres c with
  | [] => (true, Client (cl_net c) (cl_pending c) (cl_out c ++ [d]) [])
  | None :: w => (true, Client (cl_net c) (cl_pending c) (cl_out c ++ [d]) w)
  | Some k :: w => (false, Client (cl_net c) (cl_pending c) (cl_out c ++ [firstn k d]) w)
  end.
