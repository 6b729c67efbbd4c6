(* Specification for C103: which builder calls bring a reader, and which make the response
   forget the one it has. *)
From Verif Require Import M_Base M_Response.

(* the call brings a reader that has to be closed: a file that could be opened, or a reader with a
   Close method *)
Definition Brings (o : rop) : Prop :=
  (exists p r, o = RFile p r /\ r <> FNoOpen) \/ (exists a, o = RAttachment (Some a) /\ at_closer a = true).
(* it is a file the response does not take: a directory, or one without a size *)
Definition Untaken (o : rop) : Prop := exists p, o = RFile p FDir \/ o = RFile p FNoStat.
(* the call sets the attachment of the response, whatever it was *)
Definition Resets (o : rop) : Prop := (exists p ev n, o = RFile p (FFile ev n)) \/ (exists a, o = RAttachment a) \/ o = RClear.
(* among the calls, the one with number i is the last that sets the attachment *)
Definition Last (os : list rop) (i : nat) : Prop :=
  exists o, nth_error os i = Some o /\ Resets o /\ forall j o', (i < j)%nat -> nth_error os j = Some o' -> ~ Resets o'.
