(* Specification: comma-separated lists with optional white space, as they appear in header
   values. *)
From Verif Require Import M_Base.

(* a byte that neither is nor belongs to the encoding of a white space character *)
Definition visible (c : byte) : bool := (33 <=? bN c)%N && (bN c <=? 126)%N.
Definition ows (c : byte) : Prop := c = SP \/ c = x09.

Definition token_edges (t : bytes) : Prop :=
  exists c d, visible c = true /\ visible d = true /\ hd_error t = Some c /\ last_byte t = Some d.

(* a rendered list: each element with optional white space around *)
Definition padded := (bytes * bytes * bytes)%type.
Definition pad_text (e : padded) : bytes := let '(a, t, b) := e in a ++ t ++ b.
Definition pad_token (e : padded) : bytes := let '(a, t, b) := e in t.
Definition pad_ok (e : padded) : Prop :=
  let '(a, t, b) := e in Forall ows a /\ Forall ows b /\ token_edges t /\ ~ In x2c t.

Fixpoint comma_join (l : list bytes) : bytes :=
  match l with
  | [] => []
  | [x] => x
  | x :: l' => x ++ x2c :: comma_join l'
  end.
