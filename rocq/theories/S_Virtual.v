(* Specification of virtual hosts. *)
From Verif Require Import M_Base M_Status M_KeyValue M_Request M_Response M_Suit M_Virtual S_KeyValue S_Static.

Definition StartsWww (h : bytes) : Prop := exists m, h = B "www." ++ m.
(* registered host h is known as n: without "www." and a default port *)
Definition Normal (h n : bytes) : Prop :=
  exists m, (h = B "www." ++ m \/ (m = h /\ ~ StartsWww h)) /\
            (m = n ++ B ":80" \/ m = n ++ B ":443" \/ (m = n /\ ~ Suffix (B ":80") m /\ ~ Suffix (B ":443") m)).
(* nothing to remove *)
Definition Canonical (h : bytes) : Prop := ~ StartsWww h /\ ~ Suffix (B ":80") h /\ ~ Suffix (B ":443") h.
(* the address that stands for the default router, with or without a port *)
Definition AnyHost (h : bytes) : Prop := h = B "0.0.0.0" \/ exists port, h = B "0.0.0.0" ++ COLON :: port.

(* the calls that set a default router, that add a host known as n *)
Definition SetsDefault {W} (o : vop W) (x : router W) : Prop :=
  o = VDefault x \/ exists h n, o = VHost h x /\ Normal h n /\ AnyHost n.
Definition AddsHost {W} (o : vop W) (n : bytes) (x : router W) : Prop :=
  exists h, o = VHost h x /\ Normal h n /\ ~ AnyHost n.
(* the router of the last call that sets one *)
Definition DefaultIs {W} (os : list (vop W)) (x : router W) : Prop :=
  exists os1 o os2, os = os1 ++ o :: os2 /\ SetsDefault o x /\ forall o' x', In o' os2 -> ~ SetsDefault o' x'.
Definition NoDefault {W} (os : list (vop W)) : Prop := forall o x, In o os -> ~ SetsDefault o x.
(* the router of the first call that adds this host *)
Definition HostIs {W} (os : list (vop W)) (host : bytes) (x : router W) : Prop :=
  exists os1 o n os2, os = os1 ++ o :: os2 /\ AddsHost o n x /\ same_key n host /\
    forall o' n' x', In o' os1 -> AddsHost o' n' x' -> ~ same_key n' host.
Definition NoHost {W} (os : list (vop W)) (host : bytes) : Prop :=
  forall o n x, In o os -> AddsHost o n x -> ~ same_key n host.

Definition hosts_of (r : request) : list bytes := all_values (kv_pairs (r_headers r)) (B "host").
(* a change of the request nobody can see: the buffer of Headers.Values *)
Definition Unseen (g : request -> request) : Prop :=
  forall r, exists vs, g r = set_headers (Storage (kv_pairs (r_headers r)) (kv_unique (r_headers r)) vs) r.
(* a request, an error, given to router x *)
Definition GivenTo {W} (x : router W) (w : W) (r : request) (p : hprog W) : Prop :=
  exists g, Unseen g /\ p = HUpdate g (ro_request x w (g r)).
Definition ErrorGivenTo {W} (x : router W) (w : W) (r : request) (e : http_error) (p : hprog W) : Prop :=
  exists g, Unseen g /\ p = HUpdate g (ro_error x w (g r) e).
(* an empty response with a code, without any router *)
Definition Refused {W} (c : code) (w : W) (p : hprog W) : Prop :=
  exists g, Unseen g /\ p = HUpdate g (HRet (Some (set_code c new_response)) w).
