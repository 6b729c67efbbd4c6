(* Property C110: the client can tell the responses apart. *)
From Verif Require Import M_Base M_Status M_Method M_Proto M_KeyValue M_Query M_Request M_Parser M_Client M_Body
  M_Response M_Serializer M_Suit M_Path M_Radix M_Router S_Static S_KeyValue S_Chunk S_Head S_Parser S_Body S_Response S_Split S_Verdict S_Arrive
  S_Conn S_Upgrade S_Routes S_Router S_Serve S_Talk S_Missing S_Hears L_Base L_Body2 L_Chunk L_Response3
  L_Conn2 L_Conn3 L_ConnProps L_Serve L_ServeEx L_Hears L_HearsEx L_Hears2 P_Parser.

(* C110: for all sequences of well-formed requests, all segmentations, all application states
   and handlers whose responses are Legible and that leave the method of the request alone: a
   client that reads the bytes the connection sends gets exactly one message per request
   answered, in the order of the requests, each saying what the handler said (Correspondence), with
   nothing left over.  Missing: responses that are not Legible (C110_refuted and C20's
   refutations) and handlers that change the method (C110_method_refuted); refused requests;
   default headers suppressed by earlier responses (C26, [past]). *)
Theorem C110_partial : forall CS cparse encoded fresh inside,
  DecoderOk CS cparse encoded fresh inside -> forall max, (max < two64)%Z ->
  forall cfg umax kmax vmax fbs defs, distinct_names defs -> Forall clean_field defs -> Forall (fun e => ~ framing_name (fst e)) defs ->
  forall W (on_request : W -> request -> hprog W) (on_error : W -> request -> http_error -> hprog W),
  forall reqs past (st : conn CS W) tail,
  (forall q w r, In q reqs -> Shows (q_head q) r -> Ordinary fbs (on_request w r)) ->
  (forall q w r resp w1 r', In q reqs -> Shows (q_head q) r ->
    HRun (more_of (q_head q)) (on_request w r) r (fresh_view (q_text q)) resp w1 r' ->
    Legible defs (h_proto (q_head q)) (not_nil resp) /\ r_method r' = r_method r) ->
  Between umax kmax vmax fbs defs fresh past st ->
  Forall (GoodRequest encoded (cfg_limits cfg umax kmax vmax) max) reqs ->
  Unfinished (cfg_limits cfg umax kmax vmax) tail ->
  stream (k_client st) = concat (map wire reqs) ++ tail ->
  exists n outs closed st1 ms,
    cl_out (k_client st1) = cl_out (k_client st) ++ outs /\
    Correspondence defs on_request reqs (k_world st) past ms (k_world st1) closed /\
    (forall rest, GetsAll (map asks_head (firstn (List.length ms) reqs)) (concat outs ++ rest) ms rest) /\
    forall fuel, (n <= fuel)%nat ->
      serve cparse max cfg on_request on_error fuel st =
      close_with cparse max on_error (match closed with None => EndRead | Some _ => EndWrite end) st1.
Proof. exact heard_connection. Qed.
Print Assumptions C110_partial.

(* C110: for all applications that use the built-in router and answer with Legible responses,
   all bytes that may arrive, cut into reads in any way, at any point of the life of a
   connection: whatever those bytes are taken for (C105's Talk), a client reads one message for
   every request answered, each saying what the handler chosen by the router said; interim
   responses (101) are passed over and change the version of what follows.  Reading stops where
   C105's talk stops.  Missing: C105's exclusions; the one answer to a request that is refused
   or whose body breaks off, given after the talk (it is covered by C110_sent and the
   descriptions of these answers in C09, C94 and C106). *)
Theorem C110_any_partial : forall CS cparse encoded fresh inside,
  DecoderOk CS cparse encoded fresh inside -> forall max, (max < two64)%Z -> Decided encoded max ->
  forall cfg umax kmax vmax fbs defs, (0 <= umax)%Z -> distinct_names defs -> Forall clean_field defs -> Forall (fun e => ~ framing_name (fst e)) defs ->
  forall W (os : list (list nat * rop W)) x, Running os x -> PlainAliases os -> OrdinaryApp fbs os ->
  (HasParams os -> forall f t, In (f, t) (aliases os) -> t <> []) ->
  LegibleApp defs os ->
  forall past ups (st : conn CS (world W)), Amid umax kmax vmax fbs defs fresh past ups st ->
  exists n outs left st1 heads ms,
    cl_out (k_client st1) = cl_out (k_client st) ++ outs /\
    TalkHeard encoded max (cfg_limits cfg umax kmax vmax) defs (Routed os) (reads_of (k_client st)) (k_world st) past ups heads ms (k_world st1) left /\
    (forall rest, GetsAll heads (concat outs ++ rest) ms rest) /\
    match left with
    | None => forall fuel, serve cparse max cfg (on_request x) (on_error x) (n + fuel)%nat st = close_with cparse max (on_error x) EndWrite st1
    | Some (reads, past1, ups1) => reads = reads_of (k_client st1) /\ Stops encoded max (cfg_limits cfg umax kmax vmax) reads /\
        Amid umax kmax vmax fbs defs fresh past1 ups1 st1 /\
        forall fuel, serve cparse max cfg (on_request x) (on_error x) (n + fuel)%nat st = serve cparse max cfg (on_request x) (on_error x) fuel st1
    end.
Proof. exact app_heard. Qed.
Print Assumptions C110_any_partial.

(* C110: a single response, whenever and however it is sent (after any responses, in any
   version, to any request): a client that knows whether it has asked with HEAD reads it as one
   message that says what the response says, and goes on reading right behind it. *)
Theorem C110_sent : forall defs past p head r f out, Forall clean_field defs -> Forall (fun e => ~ framing_name (fst e)) defs ->
  method_eqb (r_method r) HEAD = head -> Legible defs p f -> Sent defs past p r f out ->
  exists m, Carries defs past p head f m /\ forall rest, Gets head (concat out ++ rest) m rest.
Proof. exact sent_read. Qed.
Print Assumptions C110_sent.

(* C110: what the router answers by itself can be read *)
Theorem C110_router : forall W defs,
  Speaks defs (fun _ => True) (@traced W) /\
  Speaks defs (fun r => env_error (r_env r) = Some (EHttp ErrNotFound)) (@default_all_errors W) /\
  Speaks defs (fun r => env_error (r_env r) = Some (EHttp ErrMethodNotAllowed) /\ exists ok, AllowText ok (env_allowed (r_env r))) (@default_method_not_allowed W).
Proof. intros W defs. split; [apply traced_speaks|]. split; [apply not_found_speaks|apply refusal_speaks]. Qed.
Print Assumptions C110_router.

(* C110: there is no other way to read them *)
Theorem C110_one_reading : forall heads l ms rest, GetsAll heads l ms rest ->
  forall ms' rest', GetsAll heads l ms' rest' -> ms' = ms /\ rest' = rest.
Proof. intros heads l ms rest H ms' rest' H'. destruct (gets_all_one _ _ _ _ H _ _ H') as [-> ->]. auto. Qed.
Print Assumptions C110_one_reading.

(* C110: false as it stands.  The handler answers the first request with status 204 and a body;
   the body is sent, and the client takes it for the answer to its second request.  What the
   handler said to that comes third, unasked for. *)
Theorem C110_refuted : exists m1 m2 m3,
  (forall w r, Ordinary 64 (ex_forged w r)) /\
  Forall (GoodRequest chunked_text ex_lim 100) [ex_get (B "/a"); ex_get (B "/b")] /\
  k_world (snd (ex_serve ex_forged [concat (map wire [ex_get (B "/a"); ex_get (B "/b")])])) = [(B "/a", []); (B "/b", []); (B "error", B "/b")] /\
  m_body m2 = B "forged" /\ m_body m3 = B "true" /\
  GetsAll [false; false; false] (concat (answers (ex_serve ex_forged [concat (map wire [ex_get (B "/a"); ex_get (B "/b")])]))) [m1; m2; m3] [].
Proof. exact forged_answer. Qed.
Print Assumptions C110_refuted.

(* C110: a handler that changes request.Method to HEAD (and nothing else that matters to the
   connection) gets its body left out although its length is announced: the client takes the
   beginning of the next response for the body, and what is left of that for a response. *)
Theorem C110_method_refuted : exists m1 m2 rest,
  (forall w r, Ordinary 64 (ex_remethod w r)) /\
  Forall (GoodRequest chunked_text ex_lim 100) [ex_get (B "/a"); ex_get (B "/b")] /\
  GetsAll [false; false] (concat (answers (ex_serve ex_remethod [concat (map wire [ex_get (B "/a"); ex_get (B "/b"); ex_get (B "/a")])]))) [m1; m2] rest /\
  m_body m1 = B "HTTP/" /\ m_version m2 = B "1.1" /\ m_body m2 = B "HTTP/".
Proof. exact method_changed. Qed.
Print Assumptions C110_method_refuted.

(* a body, a HEAD request for a stream, the stream, and a body received in chunks *)
Example C110_case : let net := [concat (map wire ex_talk) ++ B "GE"] in
  Forall (GoodRequest chunked_text ex_lim 100) ex_talk /\ Unfinished ex_lim (B "GE") /\
  (forall w r, Ordinary 64 (ex_files w r)) /\
  (forall q w r resp w1 r', In q ex_talk -> Shows (q_head q) r ->
    HRun (more_of (q_head q)) (ex_files w r) r (fresh_view (q_text q)) resp w1 r' ->
    Legible [] (h_proto (q_head q)) (not_nil resp) /\ r_method r' = r_method r) /\
  exists ms, GetsAll [false; true; false; false] (concat (answers (ex_serve ex_files net))) ms [] /\
    map m_body ms = [B "secret"; []; B "abcdef"; B "abc"] /\ map m_code ms = [200; 200; 200; 200]%N.
Proof. exact files_heard. Qed.

(* a body, a HEAD request, a path and a method that are not there, a change to HTTP/1.0 *)
Example C110_any_case : LegibleApp [] shop /\ OrdinaryApp 64 shop /\ PlainAliases shop /\ ~ HasParams shop /\ exists x, Running shop x /\
  exists ms, GetsAll [false; true; false; false; false] (concat (cl_out (k_client (snd (shop_serve x [firstn 50 shop_bytes; skipn 50 shop_bytes]))))) ms [] /\
    map m_body ms = [B "secret"; []; []; []; []] /\ map m_code ms = [200; 200; 404; 405; 200]%N.
Proof. exact (conj shop_legible (conj shop_ordinary (conj shop_plain (conj shop_static shop_heard)))). Qed.
