(* router/inbuilt/internal/radix: path templates and the tree of routes. *)
From Verif Require Import M_Base M_KeyValue M_Path.

Definition LBRACE : byte := x7b.
Definition RBRACE : byte := x7d.

(* ---- template.go ---- *)
(* template.go:19-22 *)
Inductive seg := SStatic (s : bytes) | SWild (name : bytes).
(* template.go:10-15 *)
Inductive tstate := TStatic | TSlash | TDynamic | TFinish.
Inductive terr := TEmpty | TNoSlash | TNotWhole | TBadName.
(* template.go:45-96: the loop from the second byte on.  [cur] is tmpl[offset:i]. *)
Fixpoint tparse_loop (st : tstate) (cur : bytes) (rest : bytes) (acc : list seg) : terr + list seg :=
  match rest with
  | [] =>
      (* template.go:99-104: offset < len(tmpl)-1 says that cur has at least two bytes *)
      match st, cur with
      | TStatic, _ :: _ :: _ => inr (acc ++ [SStatic cur])
      | _, _ => inr acc
      end
  | c :: rest' =>
      match st with
      | TStatic =>
          if Byte.eqb c SLASH then tparse_loop TSlash [] rest' (acc ++ [SStatic cur])
          else if Byte.eqb c LBRACE then inl TNotWhole
          else tparse_loop TStatic (cur ++ [c]) rest' acc
      | TSlash =>
          if Byte.eqb c SLASH then tparse_loop TSlash (cur ++ [c]) rest' acc
          else if Byte.eqb c LBRACE then tparse_loop TDynamic [] rest' acc
          else tparse_loop TStatic (cur ++ [c]) rest' acc
      | TDynamic =>
          if Byte.eqb c RBRACE then tparse_loop TFinish (cur ++ [c]) rest' (acc ++ [SWild cur])
          else if Byte.eqb c SLASH || Byte.eqb c LBRACE then inl TBadName
          else tparse_loop TDynamic (cur ++ [c]) rest' acc
      | TFinish =>
          if Byte.eqb c SLASH then tparse_loop TSlash [] rest' acc
          else inl TNotWhole
      end
  end.
(* template.go:30-107  Parse *)
Definition tparse (tmpl : bytes) : terr + list seg :=
  match tmpl with
  | [] => inl TEmpty
  | c :: rest => if Byte.eqb c SLASH then tparse_loop TStatic [] rest [] else inl TNoSlash
  end.
(* template.go:118-127  IsStatic *)
Definition is_static (t : list seg) : bool :=
  forallb (fun s => match s with SStatic _ => true | SWild _ => false end) t.

(* ---- arrmap.go and tree.go ---- *)
Section Tree.
Variable P : Type.

(* tree.go:24-30 with arrmap.go:15-19.  The fields: statics.arrOverflow, statics.arr,
   statics.m, next, payload, wildcard, isWildcard.  A Go map is an association list with one
   entry per key.  Nodes form a tree without sharing, except that statics.arr keeps its
   entries after they have been copied to statics.m; it is not looked at any more then. *)
Inductive node :=
| Node (over : bool) (arr m : list (bytes * node)) (next : option node) (payload : option P)
       (wildcard : bytes) (is_wildcard : bool).
Definition n_over (n : node) := let 'Node o _ _ _ _ _ _ := n in o.
Definition n_arr (n : node) := let 'Node _ a _ _ _ _ _ := n in a.
Definition n_map (n : node) := let 'Node _ _ m _ _ _ _ := n in m.
Definition n_next (n : node) := let 'Node _ _ _ x _ _ _ := n in x.
Definition n_payload (n : node) := let 'Node _ _ _ _ p _ _ := n in p.
Definition n_wildcard (n : node) := let 'Node _ _ _ _ _ w _ := n in w.
Definition n_is_wildcard (n : node) := let 'Node _ _ _ _ _ _ b := n in b.
Definition set_statics o a m (n : node) := Node o a m (n_next n) (n_payload n) (n_wildcard n) (n_is_wildcard n).
Definition set_payload p (n : node) := Node (n_over n) (n_arr n) (n_map n) (n_next n) p (n_wildcard n) (n_is_wildcard n).
Definition set_wild name next (n : node) := Node (n_over n) (n_arr n) (n_map n) next (n_payload n) name true.

(* tree.go:35-41  newNode(payload, false, "") *)
Definition new_node (p : option P) : node := Node false [] [] None p [] false.

Fixpoint entry_get (l : list (bytes * node)) (key : bytes) : option node :=
  match l with
  | [] => None
  | (k, n) :: l' => if beqb k key then Some n else entry_get l' key
  end.
(* the node behind an existing entry has been changed *)
Fixpoint entry_change (l : list (bytes * node)) (key : bytes) (n : node) : list (bytes * node) :=
  match l with
  | [] => []
  | (k, n0) :: l' => if beqb k key then (k, n) :: l' else (k, n0) :: entry_change l' key n
  end.
(* m[key] = node *)
Definition map_set (l : list (bytes * node)) (key : bytes) (n : node) : list (bytes * node) :=
  match entry_get l key with Some _ => entry_change l key n | None => l ++ [(key, n)] end.

(* arrmap.go:10 *)
Definition loadfactor : nat := 30.
(* arrmap.go:21-33  Lookup *)
Definition statics_get (n : node) (key : bytes) : option node :=
  if n_over n then entry_get (n_map n) key else entry_get (n_arr n) key.
(* arrmap.go:35-49 and 51-57  Add *)
Definition statics_add (n : node) (key : bytes) (child : node) : node :=
  if n_over n then set_statics true (n_arr n) (map_set (n_map n) key child) n
  else if Nat.ltb loadfactor (List.length (n_arr n) + 1) then
    let m := fold_left (fun m e => map_set m (fst e) (snd e)) (n_arr n) [] in
    set_statics true (n_arr n) (map_set m key child) n
  else set_statics false (n_arr n ++ [(key, child)]) (n_map n) n.
Definition statics_change (n : node) (key : bytes) (child : node) : node :=
  if n_over n then set_statics true (n_arr n) (entry_change (n_map n) key child) n
  else set_statics false (entry_change (n_arr n) key child) (n_map n) n.

(* tree.go:53-85  insertRecursively.  None: ErrNotImplemented. *)
Fixpoint insert (segs : list seg) (p : P) (n : node) : option node :=
  match segs with
  | [] => Some (set_payload (Some p) n)
  | SWild name :: segs' =>
      if n_is_wildcard n && negb (beqb name (n_wildcard n)) then None
      else
        match insert segs' p (match n_next n with Some x => x | None => new_node None end) with
        | Some x => Some (set_wild name (Some x) n)
        | None => None
        end
  | SStatic s :: segs' =>
      match statics_get n s with
      | Some c => option_map (statics_change n s) (insert segs' p c)
      | None => option_map (statics_add n s) (insert segs' p (new_node None))
      end
  end.

(* tree.go:116-137  processSegment: the child, or failure, and the parameters *)
Definition process_segment (params : storage) (s : bytes) (n : node) : option (option node) * storage :=
  match statics_get n s with
  | Some c => (Some (Some c), params)
  | None =>
      if negb (n_is_wildcard n) || beqb s [] then (None, params)
      else (Some (n_next n), match n_wildcard n with [] => params | w => kv_add params w s end)
  end.

(* tree.go:87-114  Match.  MPanic: index out of range or nil dereference. *)
Inductive mres := MFound (p : P) (params : storage) | MNone (params : storage) | MPanic | MStuck.
Fixpoint match_loop (fuel : nat) (n : node) (path : bytes) (params : storage) : mres :=
  match path with
  | [] => match n_payload n with Some p => MFound p params | None => MNone params end
  | _ =>
      match fuel with
      | O => MStuck
      | S f =>
          let '(s, rest) := match cut path SLASH with Some (a, b) => (a, b) | None => (path, []) end in
          match process_segment params s n with
          | (None, params') => MNone params'
          | (Some (Some c), params') => match_loop f c rest params'
          | (Some None, _) => MPanic
          end
      end
  end.
Definition match_path (n : node) (path : bytes) (params : storage) : mres :=
  match path with
  | [] => MPanic
  | c :: rest => if Byte.eqb c SLASH then match_loop (List.length rest) n rest params else MNone params
  end.
End Tree.
Arguments Node {P}. Arguments n_over {P}. Arguments n_arr {P}. Arguments n_map {P}. Arguments n_next {P}.
Arguments n_payload {P}. Arguments n_wildcard {P}. Arguments n_is_wildcard {P}. Arguments new_node {P}.
Arguments entry_get {P}. Arguments entry_change {P}. Arguments map_set {P}. Arguments statics_get {P}.
Arguments statics_add {P}. Arguments statics_change {P}. Arguments insert {P}. Arguments process_segment {P}.
Arguments MFound {P}. Arguments MNone {P}. Arguments MPanic {P}. Arguments MStuck {P}.
Arguments match_loop {P}. Arguments match_path {P}. Arguments set_statics {P}. Arguments set_payload {P}. Arguments set_wild {P}.
