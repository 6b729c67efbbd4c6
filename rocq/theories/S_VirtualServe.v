(* Specification of a server with virtual hosts: what was registered, and what comes over the
   connection. *)
From Verif Require Import M_Base M_Status M_Method M_Proto M_KeyValue M_Query M_Request M_Parser M_Client M_Body
  M_Response M_Serializer M_Suit M_Virtual S_KeyValue S_Static S_Virtual S_Chunk S_Head S_Parser S_Body S_Response S_Conn S_Fail.

(* the values of the Host lines of a head *)
Definition host_lines (h : head) : list bytes := map hl_value (filter (S_Head.named (B "host")) (h_lines h)).
(* where a request with these Host lines goes: to a router, or it is refused with a code *)
Inductive SendsTo {W} (os : list (vop W)) : list bytes -> router W + code -> Prop :=
| To_known : forall h x, HostIs os h x -> SendsTo os [h] (inl x)
| To_unknown : forall h x, NoHost os h -> DefaultIs os x -> SendsTo os [h] (inl x)
| To_missing : forall x, DefaultIs os x -> SendsTo os [] (inl x)
| To_421 : forall h, NoHost os h -> NoDefault os -> SendsTo os [h] (inr 421%N)
| To_400 : NoDefault os -> SendsTo os [] (inr 400%N)
| To_several : forall a b l, SendsTo os (a :: b :: l) (inr 400%N).
Definition answerer {W} (c : router W + code) (w : W) (r : request) : hprog W :=
  match c with
  | inl x => ro_request x w r
  | inr c => HRet (Some (set_code c new_response)) w
  end.
(* the conversation: each request is answered by the router its Host lines say; otherwise as in
   Conversation *)
Inductive HostDialogue {W} (defs : list entry) (os : list (vop W)) : list req -> W -> list bytes -> list bytes -> W -> option (list req) -> Prop :=
| Hd_end : forall w past, HostDialogue defs os [] w past [] w None
| Hd_open : forall q reqs w past c r resp w1 r' out outs w2 closed,
    SendsTo os (host_lines (q_head q)) c ->
    Shows (q_head q) r -> HRun (more_of (q_head q)) (answerer c w r) r (fresh_view (q_text q)) resp w1 r' ->
    Sent defs past (h_proto (q_head q)) r' (not_nil resp) out -> stays_open (h_proto (q_head q)) r' (not_nil resp) ->
    HostDialogue defs os reqs w1 (past ++ names (not_nil resp)) outs w2 closed ->
    HostDialogue defs os (q :: reqs) w past (out ++ outs) w2 closed
| Hd_close : forall q reqs w past c r resp w1 r' out,
    SendsTo os (host_lines (q_head q)) c ->
    Shows (q_head q) r -> HRun (more_of (q_head q)) (answerer c w r) r (fresh_view (q_text q)) resp w1 r' ->
    Sent defs past (h_proto (q_head q)) r' (not_nil resp) out -> ~ stays_open (h_proto (q_head q)) r' (not_nil resp) ->
    HostDialogue defs os (q :: reqs) w past out w1 (Some reqs).
(* everything registered can run on a connection *)
Definition OrdinaryHosts {W} (fbs : Z) (os : list (vop W)) : Prop :=
  forall o x, In o os -> (exists h, o = VHost h x) \/ o = VDefault x -> forall w r, Ordinary fbs (ro_request x w r).
(* nothing registered writes to the connection itself *)
Definition QuietHosts {W} (os : list (vop W)) : Prop :=
  forall o x, In o os -> (exists h, o = VHost h x) \/ o = VDefault x ->
    (forall w r, NoWrites (ro_request x w r)) /\ (forall w r e, NoWrites (ro_error x w r e)).
