(* Specification of connections served at once. *)
From Verif Require Import M_Base M_Status M_Method M_Request M_Parser M_Client M_Body M_Response M_Serializer M_Suit M_Router M_Many S_Router.

(* two programs that do the same, whatever they leave to those that come after them *)
Inductive Alike {W} : hprog W -> hprog W -> Prop :=
| Al_ret : forall resp w w', Alike (HRet resp w) (HRet resp w')
| Al_body : forall op k k', (forall o, Alike (k o) (k' o)) -> Alike (HBody op k) (HBody op k')
| Al_update : forall g k k', Alike k k' -> Alike (HUpdate g k) (HUpdate g k')
| Al_hijack : forall k k', (forall e, Alike (k e) (k' e)) -> Alike (HHijack k) (HHijack k')
| Al_read : forall k k', (forall x, Alike (k x) (k' x)) -> Alike (HConnRead k) (HConnRead k')
| Al_write : forall d k k', (forall b, Alike (k b) (k' b)) -> Alike (HConnWrite d k) (HConnWrite d k')
| Al_crash : Alike HCrash HCrash
| Al_try : forall p q k p' q' k', Alike p p' -> Alike q q' -> (forall resp w w', Alike (k resp w) (k' resp w')) -> Alike (HTry p q k) (HTry p' q' k')
| Al_look : forall k k', (forall r, Alike (k r) (k' r)) -> Alike (HLook k) (HLook k').
(* what is answered does not depend on anything shared: to requests like these, and to errors (the
   loop never has this one) *)
Definition Own {W} (P : request -> Prop) (on_request : W -> request -> hprog W) (on_error : W -> request -> http_error -> hprog W) : Prop :=
  (forall w w' r, P r -> Alike (on_request w r) (on_request w' r)) /\
  (forall w w' r e, e <> ErrMethodNotAllowed -> Alike (on_error w r e) (on_error w' r e)).

Section Many.
Variable CS : Type.
Variable cparse : CS -> bytes -> bool -> CS * (bytes * bytes * option cerr).
Variable max_body : Z.
Variable cfg : hcfg.
Variable W : Type.
Variable on_request : W -> request -> hprog W.
Variable on_error : W -> request -> http_error -> hprog W.
Notation conn := (conn CS W).

(* the same connection: everything but what handlers share *)
Definition Like (a b : conn) : Prop :=
  k_parser a = k_parser b /\ k_ser a = k_ser b /\ k_client a = k_client b /\ k_body a = k_body b /\ k_pre a = k_pre b.
Definition LikeSlot (a b : slot CS W) : Prop :=
  match a, b with Going x, Going y => Like x y | Over e x, Over e' y => e = e' /\ Like x y | _, _ => False end.
(* a connection that is alone, after n rounds *)
Fixpoint alone (n : nat) (st : conn) : slot CS W :=
  match n with
  | O => Going st
  | S n' => match round cparse max_body cfg on_request on_error st with inl (e, st') => Over e st' | inr st' => alone n' st' end
  end.
(* all requests the connection asks for, being alone *)
Definition AsksOnly (P : request -> Prop) (st : conn) : Prop := forall n st' d c p extra, alone n st = Going st' ->
  client_read (k_client st') = ((d, None), c) -> parse cfg (k_parser st') d = RDone p extra -> P (p_req p).
End Many.
Arguments Like {CS W}. Arguments LikeSlot {CS W}. Arguments alone {CS} cparse max_body cfg {W}. Arguments AsksOnly {CS} cparse max_body cfg {W}.

(* how often connection i took its turn *)
Definition turns (i : nat) (l : list nat) : nat := count_occ Nat.eq_dec l i.
(* a handler that keeps to its request *)
Definition Indifferent {W} (h : handler W) : Prop := forall w w' r, Alike (h w r) (h w' r).
(* an application of the built-in router all of whose handlers do: those it registers, and those
   its middlewares make of others that do *)
Definition Passes {W} (mw : middleware W) : Prop := forall h, Indifferent h -> Indifferent (mw h).
Definition OwnApp {W} (os : list (list nat * rop W)) : Prop := forall addr o, In (addr, o) os ->
  match o with
  | Route _ _ h mws | Catch _ h mws => Indifferent h /\ Forall Passes mws
  | Use mws => Forall Passes mws
  | OnErrors h _ => Indifferent h
  | _ => True
  end.
Definition NotTrace (r : request) : Prop := r_method r <> TRACE.
