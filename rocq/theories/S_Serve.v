(* Specification of a server with the built-in router: what is registered, and what comes over
   the connection; nothing in between. *)
From Verif Require Import M_Base M_Status M_Method M_Proto M_KeyValue M_Query M_Request M_Parser M_Client M_Body
  M_Response M_Serializer M_Suit M_Path M_Radix M_Router S_Static S_KeyValue S_Chunk S_Head S_Parser S_Body S_Response S_Conn S_Split S_Routes S_Router.

Section Serve.
Variable W : Type.
Notation handler := (handler W). Notation ops := (list (list nat * rop W)). Notation world := (world W).

(* where a request arrives: at its normalized path, or at that of its alias *)
Inductive Arrives (os : ops) (r : request) : request -> Prop :=
| Ar_alias : forall t, In (r_path r, t) (aliases os) -> Arrives os r (set_path (normalize t) (alias_env (r_path r) r))
| Ar_plain : ~ In (r_path r) (map fst (aliases os)) -> Arrives os r (set_path (normalize (r_path r)) r).

(* no route is there; with parameters, nor where the path starts with no slash *)
Definition Nowhere (os : ops) (r : request) : Prop :=
  (~ HasParams os /\ forall m h, ~ In (r_path r, m, h) (registered os)) \/
  (HasParams os /\ forall parts, PathOf parts (r_path r) -> forall p m h t ps,
     In (p, m, h) (registered os) -> tparse p = inr t -> Binds t parts ps -> Overruled os t parts).
(* the handlers of the route that is there, and the request with its parameters.  A route is
   what its path is read as (C31_exact; for proper templates what is written, C30_templates).
   If two paths are read as the same segments, the place is one of the two (C30_order_refuted) *)
Inductive Place (os : ops) (r : request) : (method -> handler -> Prop) -> request -> Prop :=
| Pl_static : ~ HasParams os -> (exists m h, In (r_path r, m, h) (registered os)) ->
    Place os r (fun m h => In (r_path r, m, h) (registered os)) r
| Pl_template : forall p t parts ps, HasParams os -> PathOf parts (r_path r) -> tparse p = inr t ->
    (exists m h, In (p, m, h) (registered os)) -> Binds t parts ps -> ~ Overruled os t parts ->
    Place os r (fun m h => In (p, m, h) (registered os)) (set_params (add_params (r_params r) ps) r)
(* the defect of C30: with parameters anywhere, "/" is a place without handlers *)
| Pl_root : HasParams os -> PathOf [] (r_path r) -> Nowhere os r -> Place os r (fun _ _ => False) r.

(* the answer to TRACE *)
Definition traced : handler := fun w r =>
  let text := snd w ++ request_text (trace_line r) (kv_pairs (r_headers r) ++ [(B "Content-Length", B "0")]) in
  HRet (Some (Fields 200%N [] (B "message/http") [] [] text [] None)) (fst w, text).
(* the handler a request goes to, and the request as this handler gets it *)
Inductive Dispatch (os : ops) (r : request) : handler -> request -> Prop :=
| Dp_handler : forall r0 R r1 m h a, Arrives os r r0 -> Place os r0 R r1 -> R m h ->
    m = r_method r \/ (r_method r = HEAD /\ m = GET /\ forall h', ~ R HEAD h') ->
    AllowText (fun m => exists h, R m h) a -> Dispatch os r h (set_allowed a r1)
| Dp_method : forall r0 R r1 a, Arrives os r r0 -> Place os r0 R r1 ->
    (forall h, ~ R (r_method r) h) -> (r_method r = HEAD -> forall h, ~ R GET h) -> r_method r <> TRACE ->
    AllowText (fun m => exists h, R m h) a ->
    Dispatch os r (error_choice os 405%N) (set_error (EHttp ErrMethodNotAllowed) (set_allowed a r1))
(* TRACE is answered by the router, with everything traced before (C39) *)
| Dp_trace : forall r0 R r1 a, Arrives os r r0 -> Place os r0 R r1 ->
    (forall h, ~ R TRACE h) -> r_method r = TRACE -> AllowText (fun m => exists h, R m h) a ->
    Dispatch os r traced (set_allowed a r1)
(* [ps]: parameters met on the way to a dead end stay (C30); with parameters anywhere, "/" is
   a place (Pl_root) *)
| Dp_caught : forall r0 p h ps, Arrives os r r0 -> Nowhere os r0 -> (HasParams os -> ~ PathOf [] (r_path r0)) -> (~ HasParams os -> ps = r_params r0) ->
    In (p, h) (caught os) -> Prefix p (r_path r0) ->
    (forall p' h', In (p', h') (caught os) -> Prefix p' (r_path r0) -> (List.length p' <= List.length p)%nat) ->
    Dispatch os r h (set_params ps r0)
| Dp_none : forall r0 ps, Arrives os r r0 -> Nowhere os r0 -> (HasParams os -> ~ PathOf [] (r_path r0)) -> (~ HasParams os -> ps = r_params r0) ->
    (forall p h, In (p, h) (caught os) -> ~ Prefix p (r_path r0)) ->
    Dispatch os r (error_choice os 404%N) (set_error (EHttp ErrNotFound) (set_params ps r0)).

(* everything registered can run on a connection, catchers with the paths they catch *)
Definition OrdinaryApp (fbs : Z) (os : ops) : Prop :=
  (forall p m h, In (p, m, h) (registered os) -> forall w r, Ordinary fbs (h w r)) /\
  (forall p h, In (p, h) (caught os) -> forall w r, Prefix p (r_path r) -> Ordinary fbs (h w r)) /\
  (forall c, c = 404%N \/ c = 405%N -> forall w r, Ordinary fbs (error_choice os c w r)).
(* with parameters, an empty path would panic (tree.go:88): no request has one, an alias might *)
Definition Rooted (s : bytes) : Prop := exists t, s = SLASH :: t.
Definition Routable (os : ops) (reqs : list req) : Prop :=
  HasParams os -> (forall f t, In (f, t) (aliases os) -> t <> []) /\
    forall q, In q reqs -> h_decoded (q_head q) <> [].

(* the conversation: each request is dispatched to its handler, which runs once, and whose
   response is sent; otherwise as in Conversation *)
Inductive Dialogue (defs : list entry) (os : ops) : list req -> world -> list bytes -> list bytes -> world -> option (list req) -> Prop :=
| Dg_end : forall w past, Dialogue defs os [] w past [] w None
| Dg_open : forall q reqs w past r h r1 resp w1 r' out outs w2 closed,
    Shows (q_head q) r -> Dispatch os r h r1 -> HRun (more_of (q_head q)) (h w r1) r1 (fresh_view (q_text q)) resp w1 r' ->
    Sent defs past (h_proto (q_head q)) r' (not_nil resp) out -> stays_open (h_proto (q_head q)) r' (not_nil resp) ->
    Dialogue defs os reqs w1 (past ++ names (not_nil resp)) outs w2 closed ->
    Dialogue defs os (q :: reqs) w past (out ++ outs) w2 closed
| Dg_close : forall q reqs w past r h r1 resp w1 r' out,
    Shows (q_head q) r -> Dispatch os r h r1 -> HRun (more_of (q_head q)) (h w r1) r1 (fresh_view (q_text q)) resp w1 r' ->
    Sent defs past (h_proto (q_head q)) r' (not_nil resp) out -> ~ stays_open (h_proto (q_head q)) r' (not_nil resp) ->
    Dialogue defs os (q :: reqs) w past out w1 (Some reqs).
End Serve.
Arguments traced {W}. Arguments Arrives {W}. Arguments Nowhere {W}. Arguments Place {W}. Arguments Dispatch {W}. Arguments OrdinaryApp {W}.
Arguments Routable {W}. Arguments Dialogue {W}.

(* bytes that are no request, and the status codes such bytes may get *)
Inductive Malformed (cfg : hcfg) (umax kmax vmax : Z) : bytes -> (code -> Prop) -> Prop :=
(* a request line with a defect (C70) *)
| Mf_line : forall m l rest e, ~ In SP m -> ~ In LF l -> (len (m ++ l) <= umax)%Z -> LineRefused m l e ->
    Malformed cfg umax kmax vmax (m ++ SP :: l ++ LF :: rest) (fun c => c = he_code e)
(* too many or too large headers (C71) *)
| Mf_headers : forall h rest, wf_head h -> line_fits (cfg_limits cfg umax kmax vmax) h -> ~ headers_fit (cfg_limits cfg umax kmax vmax) h ->
    Malformed cfg umax kmax vmax (render_head h ++ rest) (fun c => c = 431%N)
(* a target that is too long *)
| Mf_target : forall m l rest, In m method_names -> (len m <= umax)%Z -> ~ In LF l -> (len l > umax)%Z ->
    Malformed cfg umax kmax vmax (m ++ SP :: l ++ rest) (fun c => c = 414%N)
(* no end of the method in sight *)
| Mf_method : forall m rest, ~ In SP m -> (len m > umax)%Z ->
    Malformed cfg umax kmax vmax (m ++ rest) (fun c => c = 400%N \/ c = 501%N).

(* What the built-in router answers to a request that could not be read: the handler chosen for
   the code of the error (S_Router.error_choice) is called with a request that carries the error
   and is otherwise what was read of it (q), with an alias applied. *)
Definition GivenTo {W} (os : list (list nat * rop W)) (q : request) (e : http_error) (r1 : request) : Prop :=
  (r1 = set_error (EHttp e) q /\ ~ In (r_path q) (map fst (aliases os))) \/
  exists f t, In (f, t) (aliases os) /\ r_path q = f /\ r1 = set_error (EHttp e) (set_path t (alias_env f q)).
