(* Specification of upgrades on a server with the built-in router, and with virtual hosts. *)
From Verif Require Import M_Base M_Status M_Method M_Proto M_KeyValue M_Query M_Request M_Parser M_Client M_Body
  M_Response M_Serializer M_Suit M_Path M_Radix M_Router M_Virtual S_Static S_KeyValue S_Chunk S_Head S_Parser S_Body S_Response S_Conn S_Split S_Routes S_Router
  S_Serve S_VirtualServe S_Upgrade.

(* a request is answered by the handler registered for it *)
Definition RoutedTo {W} (os : list (list nat * rop W)) (w : world W) (q : req) (resp : option fields) (w1 : world W) (r' : request) : Prop :=
  exists r h r1, Shows (q_head q) r /\ Dispatch os r h r1 /\ HRun (more_of (q_head q)) (h w r1) r1 (fresh_view (q_text q)) resp w1 r'.
(* a request is answered by the router its Host lines say *)
Definition HostedBy {W} (os : list (vop W)) (w : W) (q : req) (resp : option fields) (w1 : W) (r' : request) : Prop :=
  exists r c, Shows (q_head q) r /\ SendsTo os (host_lines (q_head q)) c /\ HRun (more_of (q_head q)) (answerer c w r) r (fresh_view (q_text q)) resp w1 r'.
