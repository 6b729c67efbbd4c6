(* Specification: requests whose body is JSON. *)
From Verif Require Import M_Base M_Status M_Method M_Proto M_KeyValue M_Query M_Request M_Parser M_Client M_Body
  M_Response M_Serializer M_Suit M_Json S_KeyValue S_Chunk S_Head S_Parser S_Body S_Response S_Conn.

(* RFC 9110, 8.3.1: the type "application/json" in any case, perhaps followed by parameters *)
Definition JsonType (ct : bytes) : Prop := exists name more, ct = name ++ more /\ same_key name (B "application/json") /\
  (more = [] \/ exists blanks params, more = blanks ++ B ";" ++ params /\ Forall (fun c => c = x20 \/ c = x09) blanks).
(* the content type a head announces; nothing if it does not *)
Definition content_type_of (h : head) : bytes := or_default (last_value (B "content-type") (h_lines h)) [].
(* what a handler is to be told about a request with this head and this body *)
Definition json_verdict {M E} (decode : M -> bytes -> M * option E) (model : M) (h : head) (text : bytes) : M * option (jerr E) :=
  if list_eq_dec Byte.byte_eq_dec (content_type_of h) [] then (fst (decode model text), option_map JDecode (snd (decode model text)))
  else if list_eq_dec Byte.byte_eq_dec (content_type_of h) (B "application/json") then (fst (decode model text), option_map JDecode (snd (decode model text)))
  else (model, Some (JMedia ErrUnsupportedMediaType)).
