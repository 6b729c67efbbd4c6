(* Specification for C90: which names are taken for a field the server acts on. *)
From Verif Require Import M_Base.

(* a byte taken for the byte [n] of a name: [n] itself or the byte 32 below it; for a
   lower-case letter that is the upper-case letter, for the hyphen it is CR *)
Definition Reads (n k : byte) : Prop := bN k = bN n \/ (bN k + 32 = bN n)%N.
Definition ReadsAs (name key : bytes) : Prop := Forall2 Reads name key.
