(* Specification of connections on which some requests ask for another protocol. *)
From Verif Require Import M_Base M_Status M_Method M_Proto M_KeyValue M_Query M_Request M_Parser M_Client M_Body
  M_Response M_Serializer M_Suit S_KeyValue S_Chunk S_Head S_Parser S_Body S_Response S_Conn.

(* a well-formed request within all limits, with or without an Upgrade line *)
Record SoundRequest (encoded : bool -> bytes -> bytes -> Prop) (lim : limits) (max : Z) (q : req) : Prop := {
  sr_wf : wf_head (q_head q);
  sr_fits : S_Head.fits lim (q_head q);
  sr_size : (len (q_text q) <= max)%Z;
  sr_body : if is_chunked (q_head q)
            then encoded (has_trailer (q_head q)) (q_wire q) (q_text q)
            else q_wire q = q_text q /\ announced (q_head q) = len (q_text q) /\ (len (q_text q) <= max_alloc)%Z
}.
(* the first known protocol among those of the last Upgrade line *)
Definition wished (h : head) : proto := or_default (option_map offered_upgrade (last_value (B "upgrade") (h_lines h))) PUnknown.
(* the version switched to: HTTP/1.0 and HTTP/1.1 are possible *)
Definition switch_to (h : head) : option proto :=
  match wished h with HTTP10 => Some HTTP10 | HTTP11 => Some HTTP11 | _ => None end.
(* the fields that announce switches: the versions in ps are those of the requests that asked,
   earlier ones included (C47) *)
Definition announcement (ps : list proto) : list entry :=
  concat (map (fun p => [(B "Connection", B "upgrade"); (B "Upgrade", version_of p)]) ps).
Definition announced_text (defs : list entry) (past : list bytes) (ps : list proto) (p : proto) : bytes :=
  response_text (version_of p) (B "101") (B "Switching Protocol")
    (announcement ps ++ remaining (past ++ map fst (announcement ps)) defs ++ [(B "Content-Type", B "text/html")]) [].
(* what is sent for a request that is answered with f; [ups] are the versions of the requests
   that asked for a switch before, and afterwards; [past] as in Sent, before and afterwards *)
Inductive Replies (defs : list entry) (past : list bytes) (ups : list proto) (h : head) (r : request) (f : fields)
  : list bytes -> list bytes -> list proto -> Prop :=
| Rp_same : forall out, switch_to h = None -> Sent defs past (h_proto h) r f out ->
    Replies defs past ups h r f out (past ++ names f) ups
| Rp_switch : forall p first rest, switch_to h = Some p ->
    let ups' := ups ++ [h_proto h] in
    let past' := past ++ map fst (announcement ups') in
    Sent defs past' p r f (first :: rest) ->
    Replies defs past ups h r f ((announced_text defs past ups' (h_proto h) ++ first) :: rest) (past' ++ names f) ups'.
(* does the connection stay open?  Any known protocol in an Upgrade line keeps it open. *)
Definition goes_on (h : head) (r : request) (f : fields) : Prop := stays_open (h_proto h) r f \/ wished h <> PUnknown.

(* [Exchange reqs w past ups outs w' closed]: as Conversation, with the upgrades; [Answer] says
   how a request is answered in an application state *)
Inductive Exchange {W} (defs : list entry) (Answer : W -> req -> option fields -> W -> request -> Prop)
  : list req -> W -> list bytes -> list proto -> list bytes -> W -> option (list req) -> Prop :=
| Ex_end : forall w past ups, Exchange defs Answer [] w past ups [] w None
| Ex_open : forall q reqs w past ups resp w1 r' out past' ups' outs w2 closed,
    Answer w q resp w1 r' -> Replies defs past ups (q_head q) r' (not_nil resp) out past' ups' -> goes_on (q_head q) r' (not_nil resp) ->
    Exchange defs Answer reqs w1 past' ups' outs w2 closed ->
    Exchange defs Answer (q :: reqs) w past ups (out ++ outs) w2 closed
| Ex_close : forall q reqs w past ups resp w1 r' out past' ups',
    Answer w q resp w1 r' -> Replies defs past ups (q_head q) r' (not_nil resp) out past' ups' -> ~ goes_on (q_head q) r' (not_nil resp) ->
    Exchange defs Answer (q :: reqs) w past ups out w1 (Some reqs).
(* the application's answer: its handler runs on the request as it was sent *)
Definition Answered {W} (on_request : W -> request -> hprog W) (w : W) (q : req) (resp : option fields) (w1 : W) (r' : request) : Prop :=
  exists r, Shows (q_head q) r /\ HRun (more_of (q_head q)) (on_request w r) r (fresh_view (q_text q)) resp w1 r'.

(* a connection between two requests, after the upgrades ups *)
Definition Amid {CS W} (umax kmax vmax fbs : Z) (defs : list entry) (fresh : CS -> Prop) (past : list bytes) (ups : list proto) (st : conn CS W) : Prop :=
  Between umax kmax vmax fbs defs fresh past st /\
  exists c, k_pre st = set_rheaders (announcement ups) (set_code c new_response).
