(* Properties C74 - C79: strlenmap, the simple router, the request log, generated, dumped and
   compared requests. *)
From Verif Require Import M_Base M_Status M_Method M_Proto M_KeyValue M_Query M_Escape M_HeaderValue M_Request M_Parser M_Client M_Body
  M_Response M_Serializer M_Suit M_Path M_Router M_Tools S_Static S_KeyValue S_Chunk S_Head S_Parser S_Body S_Query S_Values S_Response S_Conn S_Unversioned S_Tools
  L_Base L_KeyValue L_Chunk L_Conn2 L_Conn3 L_ConnProps L_ParserProps L_Tools L_ToolsEx P_Parser.

(* ------------------------------------------------------------------------------------ *)
(* C74: for all histories of Insert and Get on a new map: nothing panics, and every Get answers
   with the value inserted first under exactly this key, or with nothing. *)
Theorem C74_map : forall T (ops : list (smap_op T)), exists rs, smap_run smap_new ops = Some rs /\ SmapAnswers [] ops rs.
Proof. exact (fun T ops => smap_history T ops smap_new [] (new_ok T)). Qed.
Print Assumptions C74_map.
Example C74_case : smap_run smap_new [MInsert (B "ab") 1%nat; MGet (B "abc"); MInsert (B "xy") 2%nat; MInsert (B "ab") 3%nat; MInsert [] 4%nat;
    MGet (B "ab"); MGet (B "xy"); MGet (B "yx"); MGet []; MGet (B "AB")]
  = Some [None; Some 1%nat; Some 2%nat; None; Some 4%nat; None].
Proof. reflexivity. Qed.

(* ------------------------------------------------------------------------------------ *)
(* C75: with the simple router every well-formed request on a connection goes to the handler, as
   it came, once and in order, and its responses are sent *)
Theorem C75_requests : forall CS cparse encoded fresh inside,
  DecoderOk CS cparse encoded fresh inside -> forall max, (max < two64)%Z ->
  forall cfg umax kmax vmax fbs defs, distinct_names defs ->
  forall W (h eh : W -> request -> hprog W),
  forall reqs past (st : conn CS W) tail,
  (forall q w r, In q reqs -> Shows (q_head q) r -> Ordinary fbs (h w r)) ->
  Between umax kmax vmax fbs defs fresh past st ->
  Forall (GoodRequest encoded (cfg_limits cfg umax kmax vmax) max) reqs ->
  Unfinished (cfg_limits cfg umax kmax vmax) tail ->
  stream (k_client st) = concat (map wire reqs) ++ tail ->
  exists n outs closed st1,
    Conversation defs h reqs (k_world st) past outs (k_world st1) closed /\
    cl_out (k_client st1) = cl_out (k_client st) ++ outs /\
    forall fuel, (n <= fuel)%nat ->
      serve cparse max cfg (simple_request h) (simple_error eh) fuel st =
      close_with cparse max (simple_error eh) (match closed with None => EndRead | Some _ => EndWrite end) st1.
Proof. exact simple_requests. Qed.
Print Assumptions C75_requests.
(* C75: and a head that is no request goes to the error handler, with the error in the
   environment and nothing else changed; its answer is sent, and the connection ends *)
Theorem C75_errors : forall CS (cparse : CS -> bytes -> bool -> CS * (bytes * bytes * option cerr)) (fresh : CS -> Prop) max
    cfg umax kmax vmax fbs defs, distinct_names defs ->
  forall W (h eh : W -> request -> hprog W) past (st : conn CS W) p' e rs,
  Between umax kmax vmax fbs defs fresh past st ->
  feed cfg (k_parser st) (reads_of (k_client st)) = (RErr p' e, rs) ->
  forall r1, r1 = (let v := r_env (p_req p') in
    set_env (Env (Some (EHttp e)) (env_allowed v) (env_encryption v) (env_alias_from v)) (p_req p')) ->
  Detached (eh (k_world st) r1) ->
  exists n resp w' r' out st1, detached_result (eh (k_world st) r1) r1 = Some (resp, w', r') /\
    (forall fuel, (n <= fuel)%nat -> serve cparse max cfg (simple_request h) (simple_error eh) fuel st = (EndParse, st1)) /\
    k_world st1 = w' /\ cl_out (k_client st1) = cl_out (k_client st) ++ [out] /\
    SentIn defs past (r_proto r') r' (not_nil resp) [out].
Proof. exact simple_errors. Qed.
Print Assumptions C75_errors.
Example C75_case : let x := simple_serve [crlf_lines [B "GET /a HTTP/1.1"; []] ++ B "GET / "; B "HTTP/1.1" ++ CRLF ++ CRLF; B "BREW / HTTP/1.1" ++ CRLF] in
  (forall w r, Ordinary 64 (simple_h w r)) /\ (forall w r, Detached (simple_eh w r)) /\
  fst x = EndParse /\ k_world (snd x) = [B "/a"; B "/"; B "request method is not supported"] /\
  cl_out (k_client (snd x)) = [ok_text (B "HTTP/1.1") (B "/a"); ok_text (B "HTTP/1.1") (B "/");
    ok_text (B "HTTP/1.1") (B "request method is not supported")].
Proof.
  split; [exact simple_h_ordinary|]. split; [exact simple_eh_detached|]. vm_compute. repeat split; reflexivity.
Qed.

(* ------------------------------------------------------------------------------------ *)
(* C76: false as it stands: when the only request has been answered and the client goes away, it
   is logged again *)
Theorem C76_refuted : exists text, text = crlf_lines [B "GET /a HTTP/1.1"; []] /\
  k_world (snd (logged_serve [text])) = ([B "GET /a"; B "GET /a"], [CRequest; CError ErrCloseConnection]).
Proof. eexists. split; [reflexivity|]. vm_compute. reflexivity. Qed.
Print Assumptions C76_refuted.
(* C76: for all streams, segmentations, failing reads and writes, applications that leave the log
   alone, and loggers: on a connection every logger gets exactly one line for every call of the
   router (as many lines as requests and one for the end of the connection, see C67), and no
   line contains a control character.  Missing: the line for the end, see above. *)
Theorem C76_lines_partial : forall CS W (cparse : CS -> bytes -> bool -> CS * (bytes * bytes * option cerr)) max cfg
    (lines : W -> list bytes) (seen : W -> list call) on_request on_error,
  Notices cparse max seen on_request on_error -> LeavesLog cparse max lines on_request on_error ->
  forall before deflt loggers, Appends lines seen deflt -> Forall (Appends lines seen) loggers ->
  forall fuel st e st',
  serve cparse max cfg (logging_request before deflt loggers on_request) (logging_error before deflt loggers on_error) fuel st = (e, st') ->
  Closes (seen (k_world st)) e (seen (k_world st')) /\
  exists calls logged, seen (k_world st') = seen (k_world st) ++ calls /\ lines (k_world st') = lines (k_world st) ++ logged /\
    List.length logged = (Nat.max 1 (List.length loggers) * List.length calls)%nat /\ Forall plain_line logged.
Proof. exact log_connection. Qed.
Print Assumptions C76_lines_partial.
(* C76: what is logged about a request: its method and its path as the mutators before have left it *)
Theorem C76_line : forall W A (lines : W -> list bytes) (rest : W -> A) deflt loggers r w,
  Appends lines rest deflt -> Forall (Appends lines rest) loggers -> Forall printable (r_path r) ->
  lines (write_log deflt loggers r w) =
    lines w ++ repeat (method_string (r_method r) ++ B " " ++ r_path r) (Nat.max 1 (List.length loggers)).
Proof. exact log_text. Qed.
Print Assumptions C76_line.
Example C76_case : let x := logged_serve [crlf_lines [B "GET /a%0aGET%20/b HTTP/1.1"; []] ++ crlf_lines [B "POST /c HTTP/1.1"; []] ++ B "BREW / "] in
  Notices ref_parse 100 snd noticed_request noticed_error /\ LeavesLog ref_parse 100 fst noticed_request noticed_error /\
  Appends fst snd note_line /\
  k_world (snd x) = ([B "GET /a\nGET /b"; B "POST /c"; B "Unknown /c"], [CRequest; CRequest; CError ErrMethodNotImplemented]).
Proof. split; [exact noticed|]. split; [exact left_alone|]. split; [exact appended|]. vm_compute. reflexivity. Qed.

(* ------------------------------------------------------------------------------------ *)
(* C77: what Generate writes for a URI and headers is, in every segmentation and within the limits,
   parsed as a GET request for this path and query with these headers *)
Theorem C77_generate : forall cfg umax kmax vmax p path decoded q h reads tail,
  Ready umax kmax vmax p -> ~ In x3f path -> ~ In LF path -> PctDecodes path decoded ->
  match q with None => True | Some t => ~ In LF t end -> Forall good_header (kv_pairs h) ->
  S_Head.fits (cfg_limits cfg umax kmax vmax) (gen_head path decoded q (kv_pairs h)) ->
  concat reads = generate (path ++ match q with None => [] | Some t => x3f :: t end) h ++ tail ->
  exists p' extra rs, feed cfg p reads = (RDone p' extra, rs) /\ extra ++ concat rs = tail /\
    r_method (p_req p') = GET /\ r_path (p_req p') = x2f :: decoded /\ r_proto (p_req p') = HTTP11 /\
    match q with Some t => q_raw (r_query (p_req p')) = t | None => r_query (p_req p') = r_query (p_req p) end /\
    kv_pairs (r_headers (p_req p')) = kv_pairs (r_headers (p_req p)) ++ kv_pairs h.
Proof. exact generated. Qed.
Print Assumptions C77_generate.
(* C77: Headers(n) are n headers that can be sent, the last of them the host *)
Theorem C77_headers : forall n, Forall good_header (kv_pairs (gen_headers n)) /\
  List.length (kv_pairs (gen_headers n)) = Nat.max 1 n /\
  last (kv_pairs (gen_headers n)) ([], []) = (B "Host", B "localhost") /\ NoDup (map fst (kv_pairs (gen_headers n))).
Proof. exact gen_headers_ok. Qed.
Print Assumptions C77_headers.
Example C77_case : S_Head.fits (cfg_limits (HCfg 50 8192 15) 16384 65536 65536) (gen_head (B "a%20b") (B "a b") (Some (B "x=1")) (kv_pairs (gen_headers 50))) /\
  PctDecodes (B "a%20b") (B "a b") /\
  exists p', feed (HCfg 50 8192 15) (new_parser 16384 65536 65536 new_request) [generate (B "a%20b?x=1") (gen_headers 50)] = (RDone p' [], []) /\
    r_path (p_req p') = B "/a b" /\ kv_len (r_headers (p_req p')) = 50%nat.
Proof. exact gen_case. Qed.

(* ------------------------------------------------------------------------------------ *)
(* C78: false as it stands: the path is dumped decoded, and the length of a chunked body as 0 *)
Theorem C78_refuted : exists text p dumped r' b' c' t,
  text = B "GET /a%20b HTTP/1.1" ++ CRLF ++ CRLF /\
  feed ex_cfg (new_parser 100 60 60 new_request) [text] = (RDone p [], []) /\
  dump ref_parse 100 (p_req p) (body_init (new_body (KSize 0 false)) (p_req p)) (new_client [] []) = (DOk dumped None, r', b', c') /\
  tool_parse dumped = Some (inr t) /\ r_path (p_req p) = B "/a b" /\ t_path t = B "/a" /\ t_proto t = B "b HTTP/1.1".
Proof. exact dump_decoded. Qed.
Print Assumptions C78_refuted.
Theorem C78_chunked_refuted : exists text p dumped r' b' c',
  text = B "POST / HTTP/1.1" ++ CRLF ++ B "Transfer-Encoding: chunked" ++ CRLF ++ CRLF /\
  feed ex_cfg (new_parser 100 60 60 new_request) [text] = (RDone p [], []) /\
  dump ref_parse 100 (p_req p) (body_init (new_body (KSize 0 false)) (p_req p)) (new_client [(B "3" ++ CRLF ++ B "abc" ++ CRLF ++ B "0" ++ CRLF ++ CRLF, None)] []) = (DOk dumped None, r', b', c') /\
  tool_parse dumped = Some (inl TWrongLength).
Proof. exact dump_chunked. Qed.
Print Assumptions C78_chunked_refuted.
(* C78: for all requests without separators in their texts, and all bodies: the dump is read
   back exactly if the announced length is that of the body, and refused otherwise.
   Missing: texts with separators and chunked bodies, see above. *)
Theorem C78_round_trip_partial : forall CS (cparse : CS -> bytes -> bool -> CS * (bytes * bytes * option cerr)) max
    r q (b : body CS) c text b' c',
  Dumpable r q -> body_bytes cparse max b c = (BROk text, b', c') ->
  exists dumped r', dump cparse max r b c = (DOk dumped None, r', b', c') /\ (exists q', r' = set_query q' r) /\
    (r_content_length r = len text -> exists t, tool_parse dumped = Some (inr t) /\ ReadBack r q text t) /\
    (r_content_length r <> len text -> tool_parse dumped = Some (inl TWrongLength)).
Proof. exact dump_parse. Qed.
Print Assumptions C78_round_trip_partial.
Example C78_case : exists p b c t,
  feed ex_cfg (new_parser 100 60 60 new_request) [crlf_lines [B "POST /a?x=%31&y HTTP/1.1"; B "Host: h: 1"; B "content-length: 3"; []]] = (RDone p [], []) /\
  Dumpable (p_req p) (Some [(B "x", B "1"); (B "y", B "1")]) /\
  (let '(d, _, _, _) := dump ref_parse 100 (p_req p) b c in
   d = DOk (crlf_lines [B "POST /a?x=1&y=1 HTTP/1.1"; B "Host: h: 1"; B "Content-Length: 3"; []] ++ B "abc") None) /\
  tool_parse (crlf_lines [B "POST /a?x=1&y=1 HTTP/1.1"; B "Host: h: 1"; B "Content-Length: 3"; []] ++ B "abc") = Some (inr t) /\
  t_path t = B "/a?x=1&y=1" /\ t_body t = B "abc" /\ kv_pairs (t_headers t) = [(B "Host", B "h: 1"); (B "Content-Length", B "3")].
Proof. exact dump_case. Qed.

(* ------------------------------------------------------------------------------------ *)
(* C79: Compare has no complaints exactly about requests that cannot be told apart: same method,
   target, version and body, and the same values under every name, in order *)
Theorem C79_compare : forall got want, tool_compare got want = 0%nat <-> SameRequest got want.
Proof. exact compare_spec. Qed.
Print Assumptions C79_compare.
Example C79_case : let r := fun hs => TReq GET (B "/") (B "HTTP/1.1") (Storage hs [] []) [] in
  tool_compare (r [(B "a", B "1"); (B "B", B "2"); (B "A", B "3")]) (r [(B "b", B "2"); (B "A", B "1"); (B "a", B "3")]) = 0%nat /\
  tool_compare (r [(B "a", B "3"); (B "B", B "2"); (B "A", B "1")]) (r [(B "b", B "2"); (B "A", B "1"); (B "a", B "3")]) = 1%nat /\
  tool_compare (r [(B "a", B "1"); (B "x", [])]) (r [(B "a", B "1")]) = 1%nat.
Proof. vm_compute. repeat split. Qed.
