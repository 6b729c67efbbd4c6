(* Specification: serving a connection comes to an end. *)
From Verif Require Import M_Base M_Status M_Method M_Proto M_KeyValue M_Query M_Request M_Parser M_Client M_Body
  M_Response M_Serializer M_Suit.

(* what a connection still has for the server: bytes pushed back, and reads with their bytes *)
Definition amount (c : client) : nat :=
  (List.length (cl_pending c) + list_sum (map (fun ev => S (List.length (fst ev))) (cl_net c)))%nat.
(* the external chunk decoder makes progress: it uses something of what it is given, and gives
   back no more than it was given *)
Definition DecoderMoves {CS} (cparse : CS -> bytes -> bool -> CS * (bytes * bytes * option cerr)) : Prop :=
  forall s data tr s' chunk extra e, cparse s data tr = (s', (chunk, extra, e)) ->
  match e with
  | None => (List.length extra < List.length data)%nat \/ (data = [] /\ extra = [])
  | Some CEof => (List.length extra <= List.length data)%nat
  | Some CErr => True
  end.
(* responses that can be sent in finite time: an attached reader ends or fails at last *)
Definition ends_reading (resp : option fields) : Prop :=
  forall f a, resp = Some f -> f_att f = Some a -> exists d e, In (d, Some e) (at_events a).
(* handlers that answer with such responses; they may do everything *)
Inductive Answering {W} : (option fields -> Prop) -> hprog W -> Prop :=
| Aw_ret : forall (ok : option fields -> Prop) resp w, ok resp -> Answering ok (HRet resp w)
| Aw_body : forall ok op k, (forall o, Answering ok (k o)) -> Answering ok (HBody op k)
| Aw_update : forall ok g k, Answering ok k -> Answering ok (HUpdate g k)
| Aw_hijack : forall ok k, (forall e, Answering ok (k e)) -> Answering ok (HHijack k)
| Aw_read : forall ok k, (forall x, Answering ok (k x)) -> Answering ok (HConnRead k)
| Aw_write : forall ok d k, (forall x, Answering ok (k x)) -> Answering ok (HConnWrite d k)
| Aw_crash : forall ok, Answering ok HCrash
| Aw_try : forall ok (mid : option fields -> Prop) p q k, Answering mid p -> Answering mid q ->
    (forall resp w, mid resp -> Answering ok (k resp w)) -> Answering ok (HTry p q k)
| Aw_look : forall ok k, (forall r, Answering ok (k r)) -> Answering ok (HLook k).
