(* Specification: two request objects with different pasts that meet the same bytes. *)
From Verif Require Import M_Base M_Status M_Method M_Proto M_KeyValue M_Query M_Request M_Parser M_Client M_Body M_Response M_Serializer M_Suit S_Head S_Parser S_Body S_Conn.

(* what can be seen of a request apart from its first line *)
Definition but_line (r : request) : request := set_method MUnknown (set_path [] (set_proto PUnknown r)).
Definition SameRest (a b : request) : Prop := SameView (but_line a) (but_line b).
(* method, path and version: the same, or each as it was before (a0, b0) *)
Definition SameOrBefore (a0 b0 a b : request) : Prop :=
  (r_method a = r_method b \/ (r_method a = r_method a0 /\ r_method b = r_method b0)) /\
  (r_path a = r_path b \/ (r_path a = r_path a0 /\ r_path b = r_path b0)) /\
  (r_proto a = r_proto b \/ (r_proto a = r_proto a0 /\ r_proto b = r_proto b0)).
(* two outcomes of reading that cannot be told apart by what a handler, or an error handler not
   interested in the first line, can see *)
Definition SameFor (a0 b0 : request) (x y : pres * list bytes) : Prop :=
  snd x = snd y /\
  match fst x, fst y with
  | RPending p, RPending q => SameRest (p_req p) (p_req q) /\ SameOrBefore a0 b0 (p_req p) (p_req q)
  | RDone p e, RDone q e' => e = e' /\ SameView (p_req p) (p_req q)
  | RErr p e, RErr q e' => e = e' /\ SameRest (p_req p) (p_req q) /\ SameOrBefore a0 b0 (p_req p) (p_req q)
  | RPanic, RPanic => True
  | _, _ => False
  end.
(* an error handler that does not look at the first line: its answer only depends on the rest *)
Definition Indifferent {W} (h : request -> hprog W) : Prop := forall a b, SameRest a b ->
  Detached (h a) /\ Detached (h b) /\ exists resp w a' b', detached_result (h a) a = Some (resp, w, a') /\ detached_result (h b) b = Some (resp, w, b').
