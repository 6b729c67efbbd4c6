(* Specification: handlers for which it does not matter that slices are not values. *)
From Verif Require Import M_Base M_Status M_Method M_Proto M_KeyValue M_Query M_Request M_Parser M_Client M_Body
  M_Response M_Serializer M_Suit M_Mem M_MemSuit S_Mem.

(* what a handler did so far: no Read yet (bytes may have been taken otherwise); Read, and since
   the first Read nothing else that reads; something else that reads after a Read *)
Inductive usage := Fresh | Reading | Over.
Definition reached (u v : usage) : Prop :=
  match u, v with Fresh, _ | Reading, Reading | Reading, Over | Over, Over => True | _, _ => False end.
Definition after_other (u : usage) : usage := match u with Fresh => Fresh | _ => Over end.
Definition after_op (u : usage) (op : bop) : usage :=
  match op with
  | ORead _ => match u with Fresh => Reading | _ => u end
  | _ => after_other u
  end.
(* a handler that never calls Read once it is Over, whatever it is answered.  [v] bounds what
   it did in the end *)
Inductive Tidy {W} : usage -> hprog W -> usage -> Prop :=
| Ty_ret : forall u v resp w, reached u v -> Tidy u (HRet resp w) v
| Ty_body : forall u v op k, (is_read op = true -> u <> Over) -> (forall o, Tidy (after_op u op) (k o) v) -> Tidy u (HBody op k) v
| Ty_update : forall u v g k, Tidy u k v -> Tidy u (HUpdate g k) v
| Ty_hijack : forall u v k, (forall e, Tidy (after_other u) (k e) v) -> Tidy u (HHijack k) v
| Ty_read : forall u v k, (forall x, Tidy (after_other u) (k x) v) -> Tidy u (HConnRead k) v
| Ty_write : forall u v d k, (forall ok, Tidy u (k ok) v) -> Tidy u (HConnWrite d k) v
| Ty_crash : forall u v, reached u v -> Tidy u HCrash v
| Ty_try : forall u mid v p q k, Tidy u p mid -> Tidy mid q mid -> reached mid v ->
    (forall resp w, Tidy mid (k resp w) v) -> Tidy u (HTry p q k) v
| Ty_look : forall u v k, (forall r, Tidy u (k r) v) -> Tidy u (HLook k) v.

(* the connection st is what mst shows *)
Record ShownConn {CS W} (st : conn CS W) (mst : mconn CS W) : Prop := {
  sc_parser : k_parser st = mk_parser mst;
  sc_ser : k_ser st = mk_ser mst;
  sc_client : Shown (k_client st) (mk_client mst);
  sc_body : mb_body (mk_body mst) = set_stash [] (bd_error (k_body st)) (k_body st);
  sc_pre : k_pre st = mk_pre mst;
  sc_world : k_world st = mk_world mst
}.
