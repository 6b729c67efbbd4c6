(* Specification vocabulary: connections whose handlers may panic. *)
From Verif Require Import M_Base M_Status M_Method M_Proto M_KeyValue M_Query M_Request M_Parser M_Client M_Body
  M_Response M_Serializer M_Suit S_KeyValue S_Chunk S_Head S_Parser S_Body S_Response S_Conn.

(* [Crashed reqs past st st1]: of the requests, some in front are served as a conversation that
   leaves the connection open; the handler of the next one panics, having seen that request and
   nothing else; what was sent to the peer is the answers to the former, and the state of the
   application is the one they left behind.  Nothing is said about the requests after it: they
   play no role. *)
Definition Crashed {CS W} (defs : list entry) (on_request : W -> request -> hprog W) (reqs : list req) (past : list bytes)
    (st st1 : conn CS W) : Prop :=
  exists before q after outs r r' v', reqs = before ++ q :: after /\
    Conversation defs on_request before (k_world st) past outs (k_world st1) None /\
    cl_out (k_client st1) = cl_out (k_client st) ++ outs /\
    Shows (q_head q) r /\
    HSteps (more_of (q_head q)) (on_request (k_world st1) r) r (fresh_view (q_text q)) Panics r' v'.
