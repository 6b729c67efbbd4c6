(* Specification for httptest.Parse: what it makes of every text. *)
From Verif Require Import M_Base M_Method M_KeyValue M_Tools S_KeyValue S_Head S_Response S_Tools S_Split.

(* s, cut around the first sep *)
Definition CutAt (s sep a b : bytes) : Prop := s = a ++ sep ++ b /\ forall a' b', s = a' ++ sep ++ b' -> (List.length a <= List.length a')%nat.
(* an integer of 64 bits with an optional sign *)
Definition IntegerText (s : bytes) (v : Z) : Prop := exists sign ds n, s = sign ++ ds /\ dec_number ds = Some n /\
  ((sign = [] \/ sign = B "+") /\ v = Z.of_N n \/ sign = B "-" /\ v = (- Z.of_N n)%Z) /\ (- two63 <= v < two63)%Z.

(* the lines up to the empty one; a text that ends without one is taken as if it had one *)
Inductive FieldLines : bytes -> terr + (list entry * bytes) -> Prop :=
| Fl_end : forall rest, FieldLines (CRLF ++ rest) (inr ([], rest))
| Fl_nothing : FieldLines [] (inr ([], []))
| Fl_field : forall raw line rest k v l text, CutAt raw CRLF line rest -> line <> [] -> CutAt line (B ": ") k v ->
    FieldLines rest (inr (l, text)) -> FieldLines raw (inr ((k, v) :: l, text))
| Fl_later : forall raw line rest k v e, CutAt raw CRLF line rest -> line <> [] -> CutAt line (B ": ") k v ->
    FieldLines rest (inl e) -> FieldLines raw (inl e)
| Fl_no_value : forall raw line rest, CutAt raw CRLF line rest -> line <> [] -> ~ Occurs (B ": ") line -> FieldLines raw (inl TNoValue)
| Fl_no_break : forall raw, raw <> [] -> ~ Occurs CRLF raw -> FieldLines raw (inl TNoBreak).

(* the length: one Content-Length, or none and "Connection: close" *)
Inductive BodySays (l : list entry) (text : bytes) : option terr -> Prop :=
| Bs_length : forall v, all_values l (B "content-length") = [v] -> IntegerText v (len text) -> BodySays l text None
| Bs_close : absent l (B "content-length") -> first_value l (B "connection") (B "close") -> BodySays l text None
| Bs_wrong : forall v n, all_values l (B "content-length") = [v] -> IntegerText v n -> n <> len text -> BodySays l text (Some TWrongLength)
| Bs_bad : forall v, all_values l (B "content-length") = [v] -> (forall n, ~ IntegerText v n) -> BodySays l text (Some TBadLength)
| Bs_many : (1 < List.length (all_values l (B "content-length")))%nat -> BodySays l text (Some TBadLength)
| Bs_none : absent l (B "content-length") -> ~ first_value l (B "connection") (B "close") -> BodySays l text (Some TNoLength).

Record tparts := TParts { tp_method : bytes; tp_path : bytes; tp_proto : bytes; tp_fields : list entry; tp_text : bytes }.
(* nothing behind the separator counts as no separator *)
Definition Lacks (s sep : bytes) : Prop := ~ Occurs sep s \/ exists a, CutAt s sep a [].
Inductive ToolSays : bytes -> terr + tparts -> Prop :=
| Ts_method : forall raw, Lacks raw [SP] -> ToolSays raw (inl TNoMethod)
| Ts_path : forall raw m a, CutAt raw [SP] m a -> a <> [] -> Lacks a [SP] -> ToolSays raw (inl TNoPath)
| Ts_proto : forall raw m a p b, CutAt raw [SP] m a -> CutAt a [SP] p b -> b <> [] -> Lacks b CRLF -> ToolSays raw (inl TNoCRLF)
| Ts_lines : forall raw m a p b v c e, CutAt raw [SP] m a -> CutAt a [SP] p b -> CutAt b CRLF v c -> c <> [] -> FieldLines c (inl e) -> ToolSays raw (inl e)
| Ts_body : forall raw m a p b v c l text e, CutAt raw [SP] m a -> CutAt a [SP] p b -> CutAt b CRLF v c -> c <> [] -> FieldLines c (inr (l, text)) ->
    BodySays l text (Some e) -> ToolSays raw (inl e)
| Ts_request : forall raw m a p b v c l text, CutAt raw [SP] m a -> CutAt a [SP] p b -> CutAt b CRLF v c -> c <> [] -> FieldLines c (inr (l, text)) ->
    BodySays l text None -> ToolSays raw (inr (TParts m p v l text)).
(* what is returned shows these parts *)
Definition Returned (v : terr + treq) (u : terr + tparts) : Prop :=
  match v, u with
  | inl e, inl e' => e = e'
  | inr t, inr p => (In (tp_method p) method_names /\ method_string (t_method t) = tp_method p \/ ~ In (tp_method p) method_names /\ t_method t = MUnknown) /\
      t_path t = tp_path p /\ t_proto t = tp_proto p /\ kv_pairs (t_headers t) = tp_fields p /\ t_body t = tp_text p
  | _, _ => False
  end.
