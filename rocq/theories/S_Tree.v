(* Specification: trees of routes that are filled by insertions. *)
From Verif Require Import M_Base M_KeyValue M_Path M_Radix.

Inductive Filled {P} : node P -> node P -> Prop :=
| Fl_done : forall n, Filled n n
| Fl_insert : forall t p n n1 n', insert t p n = Some n1 -> Filled n1 n' -> Filled n n'.
