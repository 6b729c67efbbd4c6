(* Specification vocabulary for paths, templates and routing. *)
From Verif Require Import M_Base M_KeyValue M_Path M_Radix.

(* ---- paths ---- *)
(* a path and its segments: "/" is [], "/a/b" and "/a/b/" are [a; b], "/a//b" is [a; ""; b].
   Every path starting with a slash has exactly one such list. *)
Definition slash_free (s : bytes) : Prop := ~ In SLASH s.
Definition PathOf (parts : list bytes) (path : bytes) : Prop :=
  Forall slash_free parts /\
  ((last parts [x00] <> [] /\ path = SLASH :: join_slash parts) \/
   (parts <> [] /\ path = SLASH :: join_slash parts ++ [SLASH])).

(* ---- templates ---- *)
(* the text of a segment *)
Definition seg_text (s : seg) : bytes :=
  match s with SStatic t => t | SWild name => LBRACE :: name ++ [RBRACE] end.
Definition template_text (t : list seg) : bytes := SLASH :: join_slash (map seg_text t).
Definition good_seg (s : seg) : Prop :=
  match s with
  | SStatic t => t <> [] /\ ~ In SLASH t /\ ~ In LBRACE t
  | SWild name => ~ In SLASH name /\ ~ In LBRACE name /\ ~ In RBRACE name
  end.
(* a segment as written, that no well-formed template has: an opening brace not at its start,
   or an opening brace at its start without a closing one at its end, or with another brace
   between them *)
Definition BadText (s : bytes) : Prop :=
  (exists a b, s = a ++ LBRACE :: b /\ a <> []) \/
  (exists a b, s = LBRACE :: a ++ RBRACE :: b /\ ~ In RBRACE a /\ b <> []).
Definition Unclosed (s : bytes) : Prop := exists a, s = LBRACE :: a /\ ~ In RBRACE a.

(* ---- matching ---- *)
(* the template matches the segments, binding its names *)
Inductive Binds : list seg -> list bytes -> list (bytes * bytes) -> Prop :=
| Bd_nil : Binds [] [] []
| Bd_static : forall s t parts ps, Binds t parts ps -> Binds (SStatic s :: t) (s :: parts) ps
| Bd_wild : forall name v t parts ps, v <> [] -> Binds t parts ps ->
    Binds (SWild name :: t) (v :: parts) ((match name with [] => [] | _ => [(name, v)] end) ++ ps).
(* another template has the actual segment as static text where t has a wildcard, and agrees
   with t before *)
Definition Beaten (ts : list (list seg)) (t : list seg) (parts : list bytes) : Prop :=
  exists pre name rest v rest', t = pre ++ SWild name :: rest /\ In (pre ++ SStatic v :: rest') ts /\
    nth_error parts (List.length pre) = Some v.
(* two templates with different names at the same place *)
Definition Clash (ts : list (list seg)) : Prop :=
  exists pre n1 n2 r1 r2, n1 <> n2 /\ In (pre ++ SWild n1 :: r1) ts /\ In (pre ++ SWild n2 :: r2) ts.

(* parameters added to a storage, in order *)
Definition add_params (s : storage) (ps : list (bytes * bytes)) : storage :=
  fold_left (fun s p => kv_add s (fst p) (snd p)) ps s.
