(* Specification vocabulary for whole connections: what a handler may be told about a body,
   and what a conversation of requests and responses looks like. *)
From Verif Require Import M_Base M_Status M_Method M_Proto M_KeyValue M_Query M_Request M_Parser M_Client M_Body
  M_Response M_Serializer M_Suit S_KeyValue S_Chunk S_Head S_Parser S_Body S_Response.

(* ---- a body as its handler sees it ---- *)
(* v_left: not handed out yet; v_end: the end has been reported or reached;
   v_stash, v_stash_end: what Read still holds back; v_whole: the answer of an earlier Bytes *)
Record view := View { v_left : bytes; v_end : bool; v_stash : bytes; v_stash_end : bool; v_whole : option bytes }.
Definition fresh_view (text : bytes) : view := View text false [] false None.

(* one piece: a prefix of what is left; the end comes with the last piece.  [more]: what may be
   left when the end is not reported (fixed length: something; chunked: anything) *)
Inductive Piece (more : bytes -> Prop) : view -> bytes -> option berr -> view -> Prop :=
| Pc_more : forall d l st se wh, more l ->
    Piece more (View (d ++ l) false st se wh) d None (View l false st se wh)
| Pc_last : forall d st se wh, Piece more (View d false st se wh) d (Some BEof) (View [] true st se wh)
| Pc_end : forall st se wh, Piece more (View [] true st se wh) [] (Some BEof) (View [] true st se wh).
(* several pieces handed to a callback that accepts all but perhaps the last *)
Inductive Pieces (more : bytes -> Prop) (cb : list bytes -> bool) : list bytes -> view -> list bytes -> option (option berr) -> view -> Prop :=
| Ps_refused : forall seen v d e v', Piece more v d e v' -> cb (seen ++ [d]) = false ->
    Pieces more cb seen v (seen ++ [d]) None v'
| Ps_done : forall seen v d v', Piece more v d (Some BEof) v' -> cb (seen ++ [d]) = true ->
    Pieces more cb seen v (seen ++ [d]) (Some (Some BEof)) v'
| Ps_more : forall seen v d v' all res v2, Piece more v d None v' -> cb (seen ++ [d]) = true ->
    Pieces more cb (seen ++ [d]) v' all res v2 -> Pieces more cb seen v all res v2.

(* The answers an accessor may give.  An_stale is the defect of C11: the first Bytes after the
   end was reached otherwise answers with something unrelated to this body. *)
Inductive Answer (more : bytes -> Prop) : view -> bop -> bout -> view -> Prop :=
| An_bytes : forall l st se wh, Answer more (View l false st se wh) OBytes (RBytes (BROk l)) (View [] true st se (Some l))
| An_again : forall st se d, Answer more (View [] true st se (Some d)) OBytes (RBytes (BROk d)) (View [] true st se (Some d))
| An_stale : forall st se d, Answer more (View [] true st se None) OBytes (RBytes (BROk d)) (View [] true st se None)
| An_retrieve : forall v d e v', Piece more v d e v' -> Answer more v ORetrieve (RPiece d e) v'
| An_read : forall v d e v' n,
    (* nothing held back: fetch a piece first *)
    Piece more v d e v' -> v_stash v = [] -> v_stash_end v = false ->
    Answer more v (ORead n)
      (RPiece (firstn n d) (match skipn n d with [] => e | _ => None end))
      (View (v_left v') (v_end v') (skipn n d) (match e with Some _ => true | None => false end) (v_whole v'))
| An_read_held : forall l en st se wh n, st <> [] \/ se = true ->
    Answer more (View l en st se wh) (ORead n)
      (RPiece (firstn n st) (match skipn n st with [] => if se then Some BEof else None | _ => None end))
      (View l en (skipn n st) se wh)
| An_callback : forall cb v all res v', Pieces more cb [] v all res v' ->
    Answer more v (OCallback cb) (RCallback all res) v'
| An_discard : forall l en st se wh, Answer more (View l en st se wh) ODiscard (RDiscard (Some None)) (View [] true st se wh).

(* ---- handlers ---- *)
(* how a handler ends: it returns a response and a state of the application, or panics *)
Inductive hout (W : Type) := Returns (resp : option fields) (w : W) | Panics.
Arguments Returns {W}. Arguments Panics {W}.
(* a run of a handler in which every accessor gives an admissible answer *)
Inductive HSteps {W} (more : bytes -> Prop) : hprog W -> request -> view -> hout W -> request -> view -> Prop :=
| HS_ret : forall resp w r v, HSteps more (HRet resp w) r v (Returns resp w) r v
| HS_crash : forall r v, HSteps more HCrash r v Panics r v
| HS_body : forall op k r v x v1 o r' v', Answer more v op x v1 -> HSteps more (k x) r v1 o r' v' ->
    HSteps more (HBody op k) r v o r' v'
| HS_update : forall g k r v o r' v', HSteps more k (g r) v o r' v' -> HSteps more (HUpdate g k) r v o r' v'
| HS_look : forall k r v o r' v', HSteps more (k r) r v o r' v' -> HSteps more (HLook k) r v o r' v'
| HS_try : forall p q k r v resp w r1 v1 o r' v', HSteps more p r v (Returns resp w) r1 v1 -> HSteps more (k resp w) r1 v1 o r' v' ->
    HSteps more (HTry p q k) r v o r' v'
| HS_recover : forall p q k r v r1 v1 resp w r2 v2 o r' v', HSteps more p r v Panics r1 v1 -> HSteps more q r1 v1 (Returns resp w) r2 v2 ->
    HSteps more (k resp w) r2 v2 o r' v' -> HSteps more (HTry p q k) r v o r' v'
| HS_again : forall p q k r v r1 v1 r' v', HSteps more p r v Panics r1 v1 -> HSteps more q r1 v1 Panics r' v' ->
    HSteps more (HTry p q k) r v Panics r' v'.
Definition HRun {W} (more : bytes -> Prop) (h : hprog W) (r : request) (v : view) (resp : option fields) (w : W) (r' : request) : Prop :=
  exists v', HSteps more h r v (Returns resp w) r' v'.

(* what a handler may do to the request without disturbing the connection *)
Definition harmless (g : request -> request) : Prop := forall r,
  r_hijacked (g r) = r_hijacked r /\ r_upgrade (g r) = r_upgrade r /\ (QueryFresh (r_query r) -> QueryFresh (r_query (g r))).
(* responses that can be sent completely: no attachment, or one whose reader yields pieces that
   fit the buffer and then ends *)
Inductive Sendable (fbs : Z) (f : fields) : Prop :=
| Sd_plain : f_att f = None -> Sendable fbs f
| Sd_sized : forall a pieces more, f_att f = Some a -> (0 < at_size a)%Z -> at_events a = reader_of pieces [] ++ more ->
    Forall (fun d => (List.length d <= Z.to_nat (Z.max 16 fbs))%nat) pieces -> Sendable fbs f
| Sd_stream : forall a pieces last more, f_att f = Some a -> (at_size a <= 0)%Z -> at_events a = reader_of pieces last ++ more ->
    Forall (S_Response.fits (Z.to_nat (Z.max 16 fbs))) (pieces ++ [last]) -> Sendable fbs f.
(* handlers that do not take over the connection, answer with responses of a kind [ok], and do
   not panic outside of a recover unless [panics] *)
Inductive Tame {W} : (option fields -> Prop) -> bool -> hprog W -> Prop :=
| Ta_ret : forall (ok : option fields -> Prop) panics resp w, ok resp -> Tame ok panics (HRet resp w)
| Ta_crash : forall ok, Tame ok true HCrash
| Ta_body : forall ok panics op k, (forall o, Tame ok panics (k o)) -> Tame ok panics (HBody op k)
| Ta_update : forall ok panics g k, harmless g -> Tame ok panics k -> Tame ok panics (HUpdate g k)
| Ta_look : forall ok panics k, (forall r, Tame ok panics (k r)) -> Tame ok panics (HLook k)
| Ta_try : forall ok (mid : option fields -> Prop) panics p q k, Tame mid true p -> Tame mid panics q ->
    (forall resp w, mid resp -> Tame ok panics (k resp w)) -> Tame ok panics (HTry p q k).
(* ordinary ones: they do not panic and answer with responses that can be sent *)
Definition CanBeSent (fbs : Z) (resp : option fields) : Prop := forall f, resp = Some f -> Sendable fbs f.
Definition Ordinary {W} (fbs : Z) (h : hprog W) : Prop := Tame (CanBeSent fbs) false h.

(* ---- requests ---- *)
(* a request: its head, its body as sent, and what the body means *)
Record req := Req { q_head : head; q_wire : bytes; q_text : bytes }.
Definition wire (q : req) : bytes := render_head (q_head q) ++ q_wire q.
Definition is_chunked (h : head) : bool :=
  or_default (option_map mentions_chunked (last_value (B "transfer-encoding") (h_lines h))) false.
Definition has_trailer (h : head) : bool := existsb (S_Head.named (B "trailer")) (h_lines h).
Definition announced (h : head) : Z :=
  or_default (option_map dec_value (last_value (B "content-length") (h_lines h))) 0%Z.
(* a well-formed request within all limits, no upgrade wanted: with a fixed-length body, or with
   a chunked one in the coding [encoded] the decoder understands *)
Record GoodRequest (encoded : bool -> bytes -> bytes -> Prop) (lim : limits) (max : Z) (q : req) : Prop := {
  gr_wf : wf_head (q_head q);
  gr_fits : S_Head.fits lim (q_head q);
  gr_upgrade : last_value (B "upgrade") (h_lines (q_head q)) = None;
  gr_size : (len (q_text q) <= max)%Z;
  gr_body : if is_chunked (q_head q)
            then encoded (has_trailer (q_head q)) (q_wire q) (q_text q)
            else q_wire q = q_text q /\ announced (q_head q) = len (q_text q) /\ (len (q_text q) <= max_alloc)%Z
}.
(* what may be left of the body while its end has not been reported *)
Definition more_of (h : head) : bytes -> Prop := if is_chunked h then any_text else not_done.
(* what a brand-new request object shows after the head *)
Definition Shows (h : head) (r : request) : Prop :=
  exists r0, Means new_request h r0 /\ SameView r r0 /\ r_hijacked r = false.

(* ---- responses ---- *)
(* the writes that send the response f to the request r in version p; [past] are the header
   names of earlier responses (C26) *)
Inductive Sent (defs : list entry) (past : list bytes) (p : proto) (r : request) (f : fields) : list bytes -> Prop :=
| St_plain : f_att f = None ->
    Sent defs past p r f [response_text (version_of p) (itoa_N (f_code f)) (sent_reason f) (sent_fields defs past f)
                            (if method_eqb (r_method r) HEAD then [] else f_body f)]
| St_head : forall a, f_att f = Some a -> r_method r = HEAD ->
    Sent defs past p r f [response_text (version_of p) (itoa_N (f_code f)) (sent_reason f) (attachment_fields defs past f a) []]
| St_sized : forall a pieces more, f_att f = Some a -> (0 < at_size a)%Z -> at_events a = reader_of pieces [] ++ more ->
    r_method r <> HEAD ->
    Sent defs past p r f (response_text (version_of p) (itoa_N (f_code f)) (sent_reason f) (attachment_fields defs past f a) [] :: pieces)
| St_stream : forall a pieces last more ws, f_att f = Some a -> (at_size a <= 0)%Z -> at_events a = reader_of pieces last ++ more ->
    r_method r <> HEAD -> Chunked (concat ws) (concat pieces ++ last) ->
    Sent defs past p r f (response_text (version_of p) (itoa_N (f_code f)) (sent_reason f) (attachment_fields defs past f a) [] :: ws).
(* does the connection stay open?  (Attachments: always, see C24.) *)
Definition stays_open (p : proto) (r : request) (f : fields) : Prop :=
  f_att f <> None \/
  (p = HTTP10 /\ same_key (r_connection r) (B "keep-alive")) \/ (p = HTTP11 /\ ~ same_key (r_connection r) (B "close")).

(* ---- conversations ---- *)
(* [Conversation reqs w past outs w' closed]: serving the requests one after the other from
   application state w sends outs and ends in w'.  closed = None: all were answered and the
   connection is still open; closed = Some left: a response closed it, left are the requests
   behind the one it answered. *)
Inductive Conversation {W} (defs : list entry) (on_request : W -> request -> hprog W)
  : list req -> W -> list bytes -> list bytes -> W -> option (list req) -> Prop :=
| Cv_end : forall w past, Conversation defs on_request [] w past [] w None
| Cv_open : forall q reqs w past r resp w1 r' out outs w2 closed,
    Shows (q_head q) r -> HRun (more_of (q_head q)) (on_request w r) r (fresh_view (q_text q)) resp w1 r' ->
    Sent defs past (h_proto (q_head q)) r' (not_nil resp) out -> stays_open (h_proto (q_head q)) r' (not_nil resp) ->
    Conversation defs on_request reqs w1 (past ++ names (not_nil resp)) outs w2 closed ->
    Conversation defs on_request (q :: reqs) w past (out ++ outs) w2 closed
| Cv_close : forall q reqs w past r resp w1 r' out,
    Shows (q_head q) r -> HRun (more_of (q_head q)) (on_request w r) r (fresh_view (q_text q)) resp w1 r' ->
    Sent defs past (h_proto (q_head q)) r' (not_nil resp) out -> ~ stays_open (h_proto (q_head q)) r' (not_nil resp) ->
    Conversation defs on_request (q :: reqs) w past out w1 (Some reqs).

(* an unfinished head: what a client has sent when it stops in the middle of it *)
Definition Unfinished (lim : limits) (tail : bytes) : Prop :=
  exists h more, wf_head h /\ S_Head.fits lim h /\ more <> [] /\ tail ++ more = render_head h.

(* ---- a connection between two requests ---- *)
Record Between {CS W} (umax kmax vmax fbs : Z) (defs : list entry) (fresh : CS -> Prop)
    (past : list bytes) (st : conn CS W) : Prop := {
  bt_ready : Ready umax kmax vmax (k_parser st);
  bt_req : (exists enc, p_req (k_parser st) = set_env (Env None [] enc []) new_request) \/
           (exists r, p_req (k_parser st) = request_clear r /\ QueryFresh (r_query r) /\ r_hijacked r = false);
  bt_ser : Served fbs defs past (k_ser st);
  bt_buff : s_buff (k_ser st) = [];
  bt_body : fresh (bd_cs (k_body st));
  bt_writes : writes_ok (k_client st)
}.

(* ---- other endings ---- *)
(* handlers that end by taking over the connection; k is what they do then *)
Inductive Takeover {W} (k : option berr -> hprog W) : hprog W -> Prop :=
| To_hijack : Takeover k (HHijack k)
| To_body : forall op h, (forall o, Takeover k (h o)) -> Takeover k (HBody op h)
| To_update : forall g h, harmless g -> Takeover k h -> Takeover k (HUpdate g h).
(* handlers that leave the body and the connection alone and answer with responses of a kind [ok];
   they do not panic outside of a recover unless [panics] *)
Inductive Aloof {W} : (option fields -> Prop) -> bool -> hprog W -> Prop :=
| Dt_ret : forall (ok : option fields -> Prop) panics resp w, ok resp -> Aloof ok panics (HRet resp w)
| Dt_crash : forall ok, Aloof ok true HCrash
| Dt_update : forall ok panics g k, Aloof ok panics k -> Aloof ok panics (HUpdate g k)
| Dt_look : forall ok panics k, (forall r, Aloof ok panics (k r)) -> Aloof ok panics (HLook k)
| Dt_try : forall ok (mid : option fields -> Prop) panics p q k, Aloof mid true p -> Aloof mid panics q ->
    (forall resp w, mid resp -> Aloof ok panics (k resp w)) -> Aloof ok panics (HTry p q k).
(* ... that do not panic and answer without an attachment *)
Definition NoAttachment (resp : option fields) : Prop := forall f, resp = Some f -> f_att f = None.
Definition Detached {W} (h : hprog W) : Prop := Aloof NoAttachment false h.
(* what such a handler does: it returns, or panics (on the right) *)
Fixpoint aloof_run {W} (h : hprog W) (r : request) : option ((option fields * W * request) + request) :=
  match h with
  | HRet resp w => Some (inl (resp, w, r))
  | HUpdate g k => aloof_run k (g r)
  | HLook k => aloof_run (k r) r
  | HCrash => Some (inr r)
  | HTry p q k =>
      match aloof_run p r with
      | Some (inl (resp, w, r')) => aloof_run (k resp w) r'
      | Some (inr r') =>
          match aloof_run q r' with
          | Some (inl (resp, w, r2)) => aloof_run (k resp w) r2
          | x => x
          end
      | None => None
      end
  | _ => None
  end.
Definition detached_result {W} (h : hprog W) (r : request) : option (option fields * W * request) :=
  match aloof_run h r with Some (inl x) => Some x | _ => None end.
(* handlers that neither take over the connection nor use it directly *)
Inductive Modest {W} : hprog W -> Prop :=
| Mo_ret : forall resp w, Modest (HRet resp w)
| Mo_body : forall op k, (forall o, Modest (k o)) -> Modest (HBody op k)
| Mo_update : forall g k, Modest k -> Modest (HUpdate g k)
| Mo_crash : Modest HCrash
| Mo_try : forall p q k, Modest p -> Modest q -> (forall resp w, Modest (k resp w)) -> Modest (HTry p q k)
| Mo_look : forall k, (forall r, Modest (k r)) -> Modest (HLook k).

(* the reads the connection still delivers *)
Fixpoint net_reads (net : list (bytes * option neterr)) : list bytes :=
  match net with (d, None) :: net' => d :: net_reads net' | _ => [] end.
Definition reads_of (c : client) : list bytes :=
  match cl_pending c with [] => net_reads (cl_net c) | p => p :: net_reads (cl_net c) end.

(* the connection after a round of the loop *)
Definition left_with {CS W} (x : (ending * conn CS W) + conn CS W) : conn CS W :=
  match x with inl (_, st) => st | inr st => st end.

(* n reads in a row, until one fails *)
Fixpoint take_reads (n : nat) (c : client) : list bytes * bool * client :=
  match n with
  | O => ([], true, c)
  | S m => match client_read c with
           | ((d, None), c1) => let '(ds, ok, c2) := take_reads m c1 in (d :: ds, ok, c2)
           | ((_, Some _), c1) => ([], false, c1)
           end
  end.

(* ---- what the router is called for ---- *)
Inductive call := CRequest | CError (e : http_error).
(* [seen w]: the calls the application has noticed; every call is noticed when it returns *)
Definition Notices {CS W} cparse max (seen : W -> list call) (on_request : W -> request -> hprog W) (on_error : W -> request -> http_error -> hprog W) : Prop :=
  (forall w r r0 (b : body CS) c resp w' r' b' c', run_handler cparse max (on_request w r) r0 b c = HDone resp w' r' b' c' -> seen w' = seen w ++ [CRequest]) /\
  (forall w r e r0 (b : body CS) c resp w' r' b' c', run_handler cparse max (on_error w r e) r0 b c = HDone resp w' r' b' c' -> seen w' = seen w ++ [CError e]).
(* the errors a malformed or too large head gets *)
Definition Refusal (e : http_error) : Prop :=
  e = ErrBadRequest \/ e = ErrTooLongRequestLine \/ e = ErrURITooLong \/ e = ErrMethodNotImplemented \/ e = ErrURIDecoding \/
  e = ErrUnsupportedProtocol \/ e = ErrHeaderFieldsTooLarge \/ e = ErrTooManyHeaders.
(* calls on a connection that ended this way, if there were the calls [l] before *)
Definition Closes (l : list call) (e : ending) (l' : list call) : Prop :=
  match e with
  | EndRead => exists n, l' = l ++ repeat CRequest n ++ [CError ErrCloseConnection]
  | EndWrite | EndClear => exists n, l' = l ++ repeat CRequest (S n) ++ [CError ErrCloseConnection]
  | EndParse => exists n err, l' = l ++ repeat CRequest n ++ [CError err] /\ Refusal err
  | EndHijack => exists n, l' = l ++ repeat CRequest (S n)
  | EndPanic | EndStuck => True
  end.
