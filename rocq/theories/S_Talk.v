(* Specification: what a connection makes of any bytes at all, as they are read, from its first to
   its last; the bytes are cut into requests by what the head of each says about its body. *)
From Verif Require Import M_Base M_Status M_Method M_Proto M_KeyValue M_Query M_Request M_Parser M_Client M_Body
  M_Response M_Serializer M_Suit M_Path M_Radix M_Router S_KeyValue S_Chunk S_Head S_Parser S_Body S_Response S_Split S_Verdict S_Arrive S_Conn S_Routes S_Router S_Serve S_Upgrade.

(* the head with its names as they are compared *)
Definition read_as (h : head) : head := with_lines (map compared_line (h_lines h)) h.
(* what a handler is shown: the head, and nothing of earlier requests *)
Definition Heard (lim : limits) (h : head) (r : request) : Prop :=
  exists r0, TakenFrom lim new_request h r0 /\ SameView r r0 /\ r_hijacked r = false.
(* [BodyOf r rest text rest']: the bytes behind the head are a body that means text, then rest' *)
Definition BodyOf (encoded : bool -> bytes -> bytes -> Prop) (max : Z) (r : request) (rest text rest' : bytes) : Prop :=
  (len text <= max)%Z /\
  if enc_chunked (r_encoding r) then exists w, rest = w ++ rest' /\ encoded (enc_trailer (r_encoding r)) w text
  else rest = text ++ rest' /\ r_content_length r = len text /\ (len text <= max_alloc)%Z.
Definition more_for (r : request) : bytes -> Prop := if enc_chunked (r_encoding r) then any_text else not_done.

(* [Talk reads w past ups outs w' left]: the reads are answered with outs.  left = None: a response
   closed the connection; left = Some (reads', past', ups'): it is open, and these are still to
   come.  (past and ups as in Exchange; A: what a handler does with a request that has a body of that text.) *)
Section Talk.
Variables (encoded : bool -> bytes -> bytes -> Prop) (max : Z) (lim : limits) (defs : list entry).
Context {W : Type} (A : W -> request -> bytes -> option fields -> W -> request -> Prop).
(* one request: what is sent for it, what is left of the bytes, and how its response goes *)
Inductive Turn (reads : list bytes) (w : W) (past : list bytes) (ups : list proto)
  : list bytes -> W -> list bytes -> list proto -> bytes -> bool -> Prop :=
| Tn : forall h rest r text rest' resp w1 r' out past' ups' open,
    HeadHeard lim reads (VTaken h rest) -> Heard lim h r -> BodyOf encoded max r rest text rest' ->
    A w r text resp w1 r' ->
    Replies defs past ups (read_as h) r' (not_nil resp) out past' ups' ->
    (open = true <-> goes_on (read_as h) r' (not_nil resp)) ->
    Turn reads w past ups out w1 past' ups' rest' open.
Inductive Talk : list bytes -> W -> list bytes -> list proto -> list bytes -> W -> option (list bytes * list bytes * list proto) -> Prop :=
| Tk_stop : forall reads w past ups, Talk reads w past ups [] w (Some (reads, past, ups))
| Tk_open : forall reads w past ups out w1 past' ups' rest' reads' outs w2 left,
    Turn reads w past ups out w1 past' ups' rest' true -> concat reads' = rest' ->
    Talk reads' w1 past' ups' outs w2 left -> Talk reads w past ups (out ++ outs) w2 left
| Tk_close : forall reads w past ups out w1 past' ups' rest',
    Turn reads w past ups out w1 past' ups' rest' false -> Talk reads w past ups out w1 None.
(* nothing to answer: no head, or one without the body it announces *)
Definition Stops (reads : list bytes) : Prop :=
  forall h rest, HeadHeard lim reads (VTaken h rest) -> forall r text rest', Heard lim h r -> ~ BodyOf encoded max r rest text rest'.
End Talk.
(* a handler that is run once *)
Definition Handled {W} (on_request : W -> request -> hprog W) (w : W) (r : request) (text : bytes) (resp : option fields) (w1 : W) (r' : request) : Prop :=
  HRun (more_for r) (on_request w r) r (fresh_view text) resp w1 r'.
(* the one the application dispatches to *)
Definition Routed {W} (os : list (list nat * rop W)) (w : world W) (r : request) (text : bytes) (resp : option fields) (w1 : world W) (r' : request) : Prop :=
  exists h r1, Dispatch os r h r1 /\ HRun (more_for r) (h w r1) r1 (fresh_view text) resp w1 r'.

(* it is decided whether bytes begin with a body in this coding *)
Definition Decided (encoded : bool -> bytes -> bytes -> Prop) (max : Z) : Prop := forall tr s,
  (exists w d s', s = w ++ s' /\ encoded tr w d /\ (len d <= max)%Z) \/ ~ (exists w d s', s = w ++ s' /\ encoded tr w d /\ (len d <= max)%Z).
