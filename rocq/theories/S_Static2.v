(* Specification of the name of the file that is opened, without reference to the buffer in
   which it is made. *)
From Verif Require Import M_Base M_Static S_Static.

(* the first of both separators in the path; a slash if there is none *)
Definition Separator (p : bytes) (c : byte) : Prop :=
  (exists a b, p = a ++ c :: b /\ (c = x2f \/ c = x5c) /\ ~ In x2f a /\ ~ In x5c a) \/ (~ In x2f p /\ ~ In x5c p /\ c = x2f).
(* the path with its separator at the end *)
Definition WithEnd (p w : bytes) : Prop :=
  p <> [] /\ exists c, Separator p c /\ ((exists q, p = q ++ [c] /\ w = p) \/ ((forall q, p <> q ++ [c]) /\ w = p ++ [c])).
(* The name: the root, and behind it what is left of the path after as many bytes as the prefix
   has; for every byte that the path is too short for that, a byte of the root is missing. *)
Definition NameOf (prefix root path : bytes) : bytes :=
  firstn (List.length root + List.length path - List.length prefix) (root ++ skipn (List.length prefix) path).
(* the request has its name already: it only reads from now on *)
Definition Reads (t : thread) : Prop := match t with TWaits _ | TSet _ => False | _ => True end.
Definition Readers (m : list nat) (ts : list thread) : Prop := forall j t, In j m -> nth_error ts j = Some t -> Reads t.
