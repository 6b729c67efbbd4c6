(* application/x-www-form-urlencoded queries. *)
From Verif Require Import M_Base M_Status M_KeyValue M_Query S_Head S_KeyValue.

(* [FormText s e]: e is a way to write the text s: ordinary characters stand for themselves,
   '+' for a space, %XX for any byte *)
Inductive FormText : bytes -> bytes -> Prop :=
| FT_nil : FormText [] []
| FT_char : forall c s e, c <> x25 -> c <> x26 -> c <> x3d -> c <> x2b -> FormText s e ->
    FormText (c :: s) (c :: e)
| FT_plus : forall s e, FormText s e -> FormText (SP :: s) (x2b :: e)
| FT_esc : forall c h l vh vl s e, hex_value h = Some vh -> hex_value l = Some vl ->
    bN c = (16 * vh + vl)%N -> FormText s e -> FormText (c :: s) (x25 :: h :: l :: e).

(* name=value pairs joined with '&' *)
Inductive FormQuery : list entry -> bytes -> Prop :=
| FQ_one : forall k v ek ev, FormText k ek -> FormText v ev -> FormQuery [(k, v)] (ek ++ x3d :: ev)
| FQ_more : forall k v ek ev l e, FormText k ek -> FormText v ev -> FormQuery l e ->
    FormQuery ((k, v) :: l) (ek ++ x3d :: ev ++ x26 :: e).

(* the accessors of http/query.Query, and a history of accesses *)
Inductive q_access := AGet (k : bytes) | AAll.
Inductive q_answer := QA (r : query_result) | QAll (l : list entry) (e : option http_error).
Definition q_call (q : query) (a : q_access) : query * q_answer :=
  match a with
  | AGet k => let '(q', r) := query_get q k in (q', QA r)
  | AAll => let '(q', l, e) := query_unwrap q in (q', QAll l e)
  end.
Fixpoint q_calls (q : query) (l : list q_access) : query * list q_answer :=
  match l with
  | [] => (q, [])
  | a :: l' => let '(q1, r) := q_call q a in let '(q2, rs) := q_calls q1 l' in (q2, r :: rs)
  end.
(* the right answer when the query holds the entries l *)
Definition q_right (l : list entry) (a : q_access) (r : q_answer) : Prop :=
  match a with
  | AGet k => match r with
              | QA (QValue v) => first_value l k v
              | QA QNoKey => absent l k
              | _ => False
              end
  | AAll => r = QAll l None
  end.
Definition reports_error (r : q_answer) : Prop :=
  match r with QA (QErr _) => True | QAll _ (Some _) => True | _ => False end.
(* a query object that has been given its raw text and not been looked at *)
Definition fresh_query (q : query) : Prop := q_parsed q = false /\ kv_pairs (q_params q) = [].

(* names and values the server can tell apart although it decodes the text before splitting
   it: no encoded '&' or '+' anywhere, no '=' in a name, no empty name *)
Definition plain_entry (e : entry) : Prop :=
  fst e <> [] /\ ~ In x3d (fst e) /\ ~ In x26 (fst e) /\ ~ In x2b (fst e) /\
  ~ In x26 (snd e) /\ ~ In x2b (snd e).


(* ---- any text between '?' and the end of the target, once its escapes are decoded ---- *)
(* '+' stands for a space *)
Definition spaced (s : bytes) : bytes := map (fun c => if Byte.eqb c x2b then SP else c) s.
(* one piece between two '&': a flag, whose value is 1, or a name and a value *)
Inductive Piece : bytes -> entry -> Prop :=
| Piece_flag : forall k, ~ In x3d k -> Piece k (spaced k, B "1")
| Piece_pair : forall k v, k <> [] -> ~ In x3d k -> Piece (k ++ x3d :: v) (spaced k, spaced v).
(* pieces separated, and possibly followed, by '&' *)
Inductive QueryText : bytes -> list entry -> Prop :=
| QT_nil : QueryText [] []
| QT_last : forall p e, p <> [] -> ~ In x26 p -> Piece p e -> QueryText p [e]
| QT_more : forall p e d l, ~ In x26 p -> Piece p e -> QueryText d l -> QueryText (p ++ x26 :: d) (e :: l).
(* a piece that has a value but no name *)
Inductive NamelessText : bytes -> Prop :=
| NT_here : forall d, NamelessText (x3d :: d)
| NT_more : forall p e d, ~ In x26 p -> Piece p e -> NamelessText d -> NamelessText (p ++ x26 :: d).
(* the malformed queries and the error of each *)
Inductive BadQuery : bytes -> http_error -> Prop :=
| BQ_escape : forall a d t, PctDecodes a d -> (List.length t < 2)%nat -> ~ In x25 t ->
    BadQuery (a ++ x25 :: t) ErrURIDecoding
| BQ_nameless : forall raw d, PctDecodes raw d -> NamelessText d -> BadQuery raw ErrBadQuery.
(* the answer that reports this error *)
Definition reports (e : http_error) (r : q_answer) : Prop :=
  match r with QA (QErr e') => e' = e | QAll _ (Some e') => e' = e | _ => False end.
