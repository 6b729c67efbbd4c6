(* Specification for C92: what a call on a resource attaches. *)
From Verif Require Import M_Base M_Method M_Request M_Router M_Resource.

(* a name as request methods are written *)
Definition upper (b : byte) : byte := if andb (97 <=? bN b)%N (bN b <=? 122)%N then byte_of_N (bN b - 32) else b.
(* the shorthand is named after the method *)
Definition NamedAfter (s : shorthand) (m : method) : Prop := map upper (shorthand_name s) = method_string m.
(* the call attaches the handler h, behind the middlewares ms, to the method m *)
Inductive Attaches {W} : rcall W -> method -> handler W -> list (middleware W) -> Prop :=
| At_route : forall m h ms, Attaches (RcRoute m h ms) m h ms
| At_by : forall s m h ms, NamedAfter s m -> Attaches (RcBy s h ms) m h ms.
