(* router/virtual: routing by the Host header. *)
From Verif Require Import M_Base M_Status M_KeyValue M_Request M_Response M_Suit.

Definition COLON : byte := x3a.
(* router/virtual/internal/domain/normalize.go:10-22: the loop from the end.  [back]: the
   bytes not looked at, the last one first; [port]: those already seen. *)
Fixpoint norm_loop (domain back port : bytes) : bytes :=
  match back with
  | [] => domain
  | c :: back' =>
      if Byte.eqb c x2e then domain
      else if Byte.eqb c COLON then (if beqb port (B "80") || beqb port (B "443") then rev back' else domain)
      else norm_loop domain back' (c :: port)
  end.
(* normalize.go:5-25  Normalize *)
Definition norm_host (domain : bytes) : bytes :=
  let domain := if has_prefix domain (B "www.") then skipn 4 domain else domain in
  norm_loop domain (rev domain) [].
(* normalize.go:27-33  TrimPort *)
Definition trim_port (domain : bytes) : bytes := match cut domain COLON with Some (h, _) => h | None => domain end.

(* router/router.go:13-16: an initialized router.  All routers of an application share one
   state W. *)
Record router (W : Type) := RouterOf { ro_request : W -> request -> hprog W; ro_error : W -> request -> http_error -> hprog W }.
Arguments RouterOf {W}. Arguments ro_request {W}. Arguments ro_error {W}.

Section Virtual.
Variable W : Type.
(* virtual.go:18-21 and 79-82.  Initialize (52-70) initializes every router once; routers here
   are initialized already. *)
Record vrouter := VRouter { v_hosts : list (bytes * router W); v_default : option (router W) }.
Inductive vop := VHost (host : bytes) (x : router W) | VDefault (x : router W).
(* virtual.go:43-50  Default *)
Definition v_set_default (x : router W) (v : vrouter) : vrouter := VRouter (v_hosts v) (Some x).
(* virtual.go:28-41  Host *)
Definition v_host (host : bytes) (x : router W) (v : vrouter) : vrouter :=
  let host := norm_host host in
  if beqb (trim_port host) (B "0.0.0.0") then v_set_default x v
  else VRouter (v_hosts v ++ [(host, x)]) (v_default v).
Definition v_op (v : vrouter) (o : vop) : vrouter :=
  match o with VHost h x => v_host h x v | VDefault x => v_set_default x v end.
Definition v_build (os : list vop) : vrouter := fold_left v_op os (VRouter [] None).

(* virtual.go:116-120: the loop over the hosts *)
Fixpoint v_find (hosts : list (bytes * router W)) (host : bytes) : option (router W) :=
  match hosts with
  | [] => None
  | (d, x) :: hosts' => if equal_fold d host then Some x else v_find hosts' host
  end.
(* virtual.go:102-126  getRouter; the second component is the code of the response *)
Definition get_router (v : vrouter) (r : request) : option (router W) * code :=
  match snd (kv_values_of (r_headers r) (B "host")) with
  | None => (v_default v, 400%N)
  | Some [host] =>
      match v_find (v_hosts v) host with
      | Some x => (Some x, 0%N)
      | None => (v_default v, 421%N)
      end
  | Some _ => (None, 400%N)
  end.
(* what Values leaves in the request *)
Definition looked_up (r : request) : request := set_headers (fst (kv_values_of (r_headers r) (B "host"))) r.
(* virtual.go:84-91  OnRequest *)
Definition v_request (v : vrouter) (w : W) (r : request) : hprog W :=
  HUpdate looked_up
    match get_router v r with
    | (Some x, _) => ro_request x w (looked_up r)
    | (None, c) => HRet (Some (set_code c new_response)) w
    end.
(* virtual.go:93-100  OnError *)
Definition v_error (v : vrouter) (w : W) (r : request) (e : http_error) : hprog W :=
  HUpdate looked_up
    match get_router v r with
    | (Some x, _) => ro_error x w (looked_up r) e
    | (None, c) => HRet (Some (set_code c new_response)) w
    end.
(* a virtual router is a router again *)
Definition v_router (v : vrouter) : router W := RouterOf (v_request v) (v_error v).
End Virtual.
Arguments VRouter {W}. Arguments v_hosts {W}. Arguments v_default {W}. Arguments VHost {W}. Arguments VDefault {W}.
Arguments v_set_default {W}. Arguments v_host {W}. Arguments v_op {W}. Arguments v_build {W}. Arguments v_find {W}.
Arguments get_router {W}. Arguments v_request {W}. Arguments v_error {W}. Arguments v_router {W}.
