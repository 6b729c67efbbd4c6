(* Specification of responses in any version, none included. *)
From Verif Require Import M_Base M_Status M_Method M_Proto M_KeyValue M_Query M_Request M_Client M_Body M_Response M_Serializer M_Suit S_KeyValue S_Response S_Conn.

(* without a version, the response lacks the version and the space behind it (C61_refuted) *)
Definition SentIn (defs : list entry) (past : list bytes) (p : proto) (r : request) (f : fields) (outs : list bytes) : Prop :=
  match p with
  | PUnknown => exists out, outs = [out] /\ Sent defs past HTTP11 r f [B "HTTP/1.1 " ++ out]
  | _ => Sent defs past p r f outs
  end.
