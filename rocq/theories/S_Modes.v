(* Specification: who can read the key. *)
From Verif Require Import M_Base M_Https M_Modes.

(* people other than the owner *)
Inductive who := Group | Others.
(* the bits of a mode: r is 4 and x is 1 for others, eight times that for the group *)
Definition may_read (w : who) (mode : N) : bool := N.testbit mode (match w with Others => 2 | Group => 5 end).
Definition may_search (w : who) (mode : N) : bool := N.testbit mode (match w with Others => 0 | Group => 3 end).
(* the directory lets them through to the file, and the file lets them read it *)
Definition Reads (w : who) (f : fs) (m : modes) (dir file : bytes) : Prop :=
  f dir = Some NDir /\ may_search w (m dir) = true /\ (exists c, f file = Some (NFile c)) /\ may_read w (m file) = true.
