(* Specification: handlers that may take over a connection that receives any bytes. *)
From Verif Require Import M_Base M_Status M_Method M_Proto M_KeyValue M_Query M_Request M_Parser M_Client M_Body
  M_Response M_Serializer M_Suit M_Path M_Radix M_Router S_KeyValue S_Chunk S_Head S_Parser S_Body S_Response S_Split S_Verdict S_Arrive S_Conn S_Routes S_Router S_Serve S_Upgrade S_Talk
  S_Mutators S_Mutated S_Takeover.

(* [SeizedAmid … reads past ups st st1]: the requests that could be taken from the reads were answered
   (outs), until the handler of one took over; it was shown the head and the body of that request, and
   what stands behind it (rest') is what was in front of it.  [Begins w r h r1]: in the application
   state w, a request that is heard as r is given to h as r1. *)
Definition SeizedAmid {CS W} (encoded : bool -> bytes -> bytes -> Prop) (max : Z) (lim : limits) (defs : list entry)
    (A : W -> request -> bytes -> option fields -> W -> request -> Prop) (Begins : W -> request -> hprog W -> request -> Prop)
    (past : list bytes) (ups : list proto) (st st1 : conn CS W) : Prop :=
  exists outs w1 reads past1 ups1 h rest r text rest' f r1 resp r' v evs wrote,
    Talk encoded max lim defs A (reads_of (k_client st)) (k_world st) past ups outs w1 (Some (reads, past1, ups1)) /\
    HeadHeard lim reads (VTaken h rest) /\ Heard lim h r /\ BodyOf encoded max r rest text rest' /\
    Begins w1 r f r1 /\
    FSteps (more_for r) rest' f r1 (Open (fresh_view text)) (Returns resp (k_world st1)) r' (Over v evs wrote) /\
    cl_out (k_client st1) = cl_out (k_client st) ++ outs ++ wrote /\
    stream (k_client st1) = net_data evs.
(* a handler that is run once *)
Definition Taking {W} (on_request : W -> request -> hprog W) (w : W) (r : request) (h : hprog W) (r1 : request) : Prop :=
  h = on_request w r /\ r1 = r.
(* the one registered for what the mutators made of the request *)
Definition TakingRoute {W} (os : list (list nat * rop W)) (mus : list (request -> request)) (w : world W) (r : request) (h : hprog (world W)) (r1 : request) : Prop :=
  exists f, Dispatch (settled os) (one_by_one mus r) f r1 /\ h = f w r1.
