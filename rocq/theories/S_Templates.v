(* Specification of what every template is read as, piece by piece between the slashes. *)
From Verif Require Import M_Base M_Path M_Radix S_Routes.

(* no braces *)
Definition plain_name (n : bytes) : Prop := ~ In LBRACE n /\ ~ In RBRACE n.
Definition no_open (s : bytes) : Prop := ~ In LBRACE s.
(* one more segment in front *)
Definition then_seg (s : seg) (r : terr + list seg) : terr + list seg :=
  match r with inl e => inl e | inr l => inr (s :: l) end.
Definition slashes (k : nat) : bytes := repeat SLASH k.

(* the pieces behind the first one; k: the empty pieces just skipped, whose slashes go to the
   next static one *)
Inductive Behind : nat -> list bytes -> terr + list seg -> Prop :=
| B_end k : Behind k [[]] (inr [])
| B_empty k ps r : ps <> [] -> Behind (S k) ps r -> Behind k ([] :: ps) r
| B_param_last k n : plain_name n -> Behind k [LBRACE :: n ++ [RBRACE]] (inr [SWild n])
| B_param k n ps r : plain_name n -> ps <> [] -> Behind 0 ps r -> Behind k ((LBRACE :: n ++ [RBRACE]) :: ps) (then_seg (SWild n) r)
| B_unclosed k n : plain_name n -> Behind k [LBRACE :: n] (inr [])
| B_unclosed_slash k n ps : plain_name n -> ps <> [] -> Behind k ((LBRACE :: n) :: ps) (inl TBadName)
| B_brace_in_name k n x ps : plain_name n -> Behind k ((LBRACE :: n ++ LBRACE :: x) :: ps) (inl TBadName)
| B_suffix k n c x ps : plain_name n -> Behind k ((LBRACE :: n ++ RBRACE :: c :: x) :: ps) (inl TNotWhole)
| B_single c : c <> LBRACE -> Behind 0 [[c]] (inr [])
| B_static_last k s : s <> [] -> no_open s -> k + List.length s >= 2 -> Behind k [s] (inr [SStatic (slashes k ++ s)])
| B_static k s ps r : s <> [] -> no_open s -> ps <> [] -> Behind 0 ps r -> Behind k (s :: ps) (then_seg (SStatic (slashes k ++ s)) r)
| B_prefix k a x ps : a <> [] -> no_open a -> Behind k ((a ++ LBRACE :: x) :: ps) (inl TNotWhole).

(* all pieces *)
Inductive Template : list bytes -> terr + list seg -> Prop :=
| T_short s : no_open s -> List.length s < 2 -> Template [s] (inr [])
| T_only s : no_open s -> List.length s >= 2 -> Template [s] (inr [SStatic s])
| T_more s ps r : no_open s -> ps <> [] -> Behind 0 ps r -> Template (s :: ps) (then_seg (SStatic s) r)
| T_brace a x ps : no_open a -> Template ((a ++ LBRACE :: x) :: ps) (inl TNotWhole).
