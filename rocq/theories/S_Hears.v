(* How a client reads the responses on a connection, one after the other. *)
From Verif Require Import M_Base M_Status M_Method M_Proto M_KeyValue M_Request M_Client M_Response M_Serializer M_Suit M_Query M_Parser M_Body M_Path M_Radix M_Router S_KeyValue S_Chunk S_Head S_Parser S_Body S_Response S_Split S_Verdict S_Arrive S_Conn S_Upgrade S_Routes S_Router S_Serve S_Talk.

(* [Gets head l m rest]: a client that waits for the answer to one request reads the message m
   from the front of l and goes on with rest.  Bodies end as RFC 9112, 6.3 says: at once (HEAD,
   204, 304), after Content-Length bytes, or with the last chunk (from HTTP/1.1 on).  Interim
   messages are passed over, 101 among them: what is switched to here is always HTTP/1. *)
Inductive Gets (head : bool) : bytes -> message -> bytes -> Prop :=
| Gt_length : forall l m rest, read_response head l = Some (m, rest) -> (200 <= m_code m)%N -> Gets head l m rest
| Gt_chunked : forall l start ls c reason fs w text rest,
    cut_lines (S (List.length l)) l = Some (start :: ls, w ++ rest) ->
    read_start start = Some (B "HTTP/1.1", c, reason) -> read_fields ls = Some fs ->
    head = false -> bodyless c = false ->
    all_values fs (B "transfer-encoding") = [B "chunked"] -> all_values fs (B "content-length") = [] ->
    Chunked w text -> Gets head l (Msg (B "HTTP/1.1") c reason fs text) rest
| Gt_interim : forall l m0 mid m rest, read_response head l = Some (m0, mid) -> (m_code m0 < 200)%N ->
    Gets head mid m rest -> Gets head l m rest.
(* one message for every request; the list says which of them were HEAD requests *)
Inductive GetsAll : list bool -> bytes -> list message -> bytes -> Prop :=
| Ga_end : forall l, GetsAll [] l [] l
| Ga_next : forall head heads l m mid ms rest, Gets head l m mid -> GetsAll heads mid ms rest ->
    GetsAll (head :: heads) l (m :: ms) rest.
Definition asks_head (q : req) : bool := method_eqb (h_method (q_head q)) HEAD.

(* the message that says what the response f says; [past] are the header names of earlier
   responses (C26) *)
Inductive Carries (defs : list entry) (past : list bytes) (p : proto) (head : bool) (f : fields) : message -> Prop :=
| Ca_plain : f_att f = None ->
    Carries defs past p head f (Msg (version_of p) (f_code f) (sent_reason f) (map trimmed (sent_fields defs past f)) (if head then [] else f_body f))
| Ca_head : forall a, f_att f = Some a -> head = true ->
    Carries defs past p head f (Msg (version_of p) (f_code f) (sent_reason f) (map trimmed (attachment_fields defs past f a)) [])
| Ca_file : forall a pieces last more, f_att f = Some a -> at_events a = reader_of pieces last ++ more -> head = false ->
    Carries defs past p head f (Msg (version_of p) (f_code f) (sent_reason f) (map trimmed (attachment_fields defs past f a)) (concat pieces ++ last)).
(* responses a client can read in version p: a final status code of three digits, no CR, LF or
   colon where it does not belong, the framing left to the server, no body where none may be,
   attachments as long as they say and chunked ones only from HTTP/1.1 on *)
Record Legible (defs : list entry) (p : proto) (f : fields) : Prop := {
  lg_code : (200 <= f_code f <= 999)%N;
  lg_clean : Renderable f;
  lg_framing : Forall (fun e => ~ framing_name (fst e)) (f_headers f);
  lg_te : f_te f = [];
  lg_bodyless : bodyless (f_code f) = true -> f_body f = [] /\ f_att f = None;
  lg_size : forall a pieces last more, f_att f = Some a -> (0 < at_size a)%Z -> at_events a = reader_of pieces last ++ more ->
    at_size a = len (concat pieces ++ last);
  lg_version : forall a, f_att f = Some a -> (at_size a <= 0)%Z -> p = HTTP11
}.

(* [Conversation], as a client sees it: messages in place of bytes *)
Inductive Correspondence {W} (defs : list entry) (on_request : W -> request -> hprog W)
  : list req -> W -> list bytes -> list message -> W -> option (list req) -> Prop :=
| Co_end : forall w past, Correspondence defs on_request [] w past [] w None
| Co_open : forall q reqs w past r resp w1 r' m ms w2 closed,
    Shows (q_head q) r -> HRun (more_of (q_head q)) (on_request w r) r (fresh_view (q_text q)) resp w1 r' ->
    Carries defs past (h_proto (q_head q)) (asks_head q) (not_nil resp) m -> stays_open (h_proto (q_head q)) r' (not_nil resp) ->
    Correspondence defs on_request reqs w1 (past ++ names (not_nil resp)) ms w2 closed ->
    Correspondence defs on_request (q :: reqs) w past (m :: ms) w2 closed
| Co_close : forall q reqs w past r resp w1 r' m,
    Shows (q_head q) r -> HRun (more_of (q_head q)) (on_request w r) r (fresh_view (q_text q)) resp w1 r' ->
    Carries defs past (h_proto (q_head q)) (asks_head q) (not_nil resp) m -> ~ stays_open (h_proto (q_head q)) r' (not_nil resp) ->
    Correspondence defs on_request (q :: reqs) w past [m] w1 (Some reqs).

(* ---- any bytes ---- *)
(* the version a request is answered in *)
Definition answer_version (r : request) : proto :=
  match r_upgrade r with HTTP10 => HTTP10 | HTTP11 => HTTP11 | _ => r_proto r end.
(* [Replies], as a client sees it *)
Inductive Says (defs : list entry) (past : list bytes) (ups : list proto) (h : S_Head.head) (f : fields)
  : message -> list bytes -> list proto -> Prop :=
| Sy_same : forall m, switch_to h = None -> Carries defs past (h_proto h) (method_eqb (h_method h) HEAD) f m ->
    Says defs past ups h f m (past ++ names f) ups
| Sy_switch : forall p m, switch_to h = Some p ->
    let ups' := ups ++ [h_proto h] in
    let past' := past ++ map fst (announcement ups') in
    Carries defs past' p (method_eqb (h_method h) HEAD) f m ->
    Says defs past ups h f m (past' ++ names f) ups'.
Section TalkHeard.
Variables (encoded : bool -> bytes -> bytes -> Prop) (max : Z) (lim : limits) (defs : list entry).
Context {W : Type} (A : W -> request -> bytes -> option fields -> W -> request -> Prop).
(* [Turn] and [Talk], as a client sees them *)
Inductive TurnHeard (reads : list bytes) (w : W) (past : list bytes) (ups : list proto)
  : bool -> message -> W -> list bytes -> list proto -> bytes -> bool -> Prop :=
| Th : forall h rest r text rest' resp w1 r' m past' ups' open,
    HeadHeard lim reads (VTaken h rest) -> Heard lim h r -> BodyOf encoded max r rest text rest' ->
    A w r text resp w1 r' ->
    Says defs past ups (read_as h) (not_nil resp) m past' ups' ->
    (open = true <-> goes_on (read_as h) r' (not_nil resp)) ->
    TurnHeard reads w past ups (method_eqb (h_method h) HEAD) m w1 past' ups' rest' open.
Inductive TalkHeard : list bytes -> W -> list bytes -> list proto -> list bool -> list message -> W -> option (list bytes * list bytes * list proto) -> Prop :=
| Hd_stop : forall reads w past ups, TalkHeard reads w past ups [] [] w (Some (reads, past, ups))
| Hd_open : forall reads w past ups head m w1 past' ups' rest' reads' heads ms w2 left,
    TurnHeard reads w past ups head m w1 past' ups' rest' true -> concat reads' = rest' ->
    TalkHeard reads' w1 past' ups' heads ms w2 left -> TalkHeard reads w past ups (head :: heads) (m :: ms) w2 left
| Hd_close : forall reads w past ups head m w1 past' ups' rest',
    TurnHeard reads w past ups head m w1 past' ups' rest' false -> TalkHeard reads w past ups [head] [m] w1 None.
End TalkHeard.

(* ---- applications ---- *)
(* whatever the handler answers to a request of this kind can be read, and it leaves the method alone *)
Definition Speaks {W} (defs : list entry) (kind : request -> Prop) (h : handler W) : Prop :=
  forall more w r text resp w1 r', kind r -> HRun more (h w r) r (fresh_view text) resp w1 r' ->
  Legible defs (answer_version r) (not_nil resp) /\ r_method r' = r_method r.
(* every handler of the application does, the error handlers for what the router gives them *)
Definition LegibleApp {W} (defs : list entry) (os : list (list nat * rop W)) : Prop :=
  (forall p m h, In (p, m, h) (registered os) -> Speaks defs (fun _ => True) h) /\
  (forall p h, In (p, h) (caught os) -> Speaks defs (fun r => Prefix p (r_path r)) h) /\
  Speaks defs (fun r => env_error (r_env r) = Some (EHttp ErrNotFound)) (error_choice os 404%N) /\
  Speaks defs (fun r => env_error (r_env r) = Some (EHttp ErrMethodNotAllowed) /\ exists ok, AllowText ok (env_allowed (r_env r))) (error_choice os 405%N).
