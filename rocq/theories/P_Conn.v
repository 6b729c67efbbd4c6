(* Properties C07, C47, C59 - C61: whole connections. *)
From Verif Require Import M_Base M_Status M_Method M_Proto M_KeyValue M_Query M_Request M_Parser M_Client M_Body
  M_Response M_Serializer M_Suit S_KeyValue S_Chunk S_Head S_Parser S_Body S_Response S_Conn S_Unversioned L_Base L_Body2 L_Chunk L_Response3
  L_Conn2 L_Conn3 L_ConnProps P_Parser.

(* ------------------------------------------------------------------------------------ *)
(* C07: false as it stands.  Three pipelined requests; the handlers of the second and third
   drop their body and ask for it afterwards: both get the body of the first. *)
Theorem C07_refuted : exists outs,
  outs = [ok_text (B "HTTP/1.1") (B "secret"); ok_text (B "HTTP/1.1") (B "secret"); ok_text (B "HTTP/1.1") (B "secret")] /\
  Forall (GoodRequest chunked_text ex_lim 100) ex_reqs /\ map q_text ex_reqs = [B "secret"; []; B "abc"] /\
  answers (ex_serve ex_stale [concat (map wire ex_reqs)]) = outs.
Proof. eexists. split; [reflexivity|]. split; [exact ex_reqs_good|]. split; [reflexivity|]. vm_compute. reflexivity. Qed.
Print Assumptions C07_refuted.

(* C07: for all sequences of well-formed requests with fixed-length or chunked bodies, all
   segmentations, all application states and handlers that answer with sendable responses:
   the loop serves them as a Conversation, i.e. handlers are called once per request and in
   order, each sees the head of its request (Shows) and its body through admissible answers
   (HRun), each response is sent once, completely and in order (Sent), and the connection is
   closed exactly by a response that says so.  When the peer stops in the middle of a head,
   no further handler but OnError(close) is called.
   Missing: Answer admits the wrong body of C11 (An_stale); header names of earlier responses
   suppress defaults (C26, [past]); upgrades (C47); failing writes (C07_writes_partial); malformed requests (C61). *)
Theorem C07_conversation_partial : forall CS cparse encoded fresh inside,
  DecoderOk CS cparse encoded fresh inside -> forall max, (max < two64)%Z ->
  forall cfg umax kmax vmax fbs defs, distinct_names defs ->
  forall W (on_request : W -> request -> hprog W) (on_error : W -> request -> http_error -> hprog W),
  forall reqs past (st : conn CS W) tail,
  (forall q w r, In q reqs -> Shows (q_head q) r -> Ordinary fbs (on_request w r)) ->
  Between umax kmax vmax fbs defs fresh past st ->
  Forall (GoodRequest encoded (cfg_limits cfg umax kmax vmax) max) reqs ->
  Unfinished (cfg_limits cfg umax kmax vmax) tail ->
  stream (k_client st) = concat (map wire reqs) ++ tail ->
  exists n outs closed st1,
    Conversation defs on_request reqs (k_world st) past outs (k_world st1) closed /\
    cl_out (k_client st1) = cl_out (k_client st) ++ outs /\
    forall fuel, (n <= fuel)%nat ->
      serve cparse max cfg on_request on_error fuel st =
      close_with cparse max on_error (match closed with None => EndRead | Some _ => EndWrite end) st1.
Proof. exact whole_connection. Qed.
Print Assumptions C07_conversation_partial.

(* C07: whatever comes after them: once the requests are answered and the connection is
   open, the loop is where a connection between two requests is, with exactly the remaining
   bytes in front of it.  (Same exclusions.) *)
Theorem C07_boundary_partial : forall CS cparse encoded fresh inside,
  DecoderOk CS cparse encoded fresh inside -> forall max, (max < two64)%Z ->
  forall cfg umax kmax vmax fbs defs, distinct_names defs ->
  forall W (on_request : W -> request -> hprog W) (on_error : W -> request -> http_error -> hprog W),
  forall reqs past (st : conn CS W) tail,
  (forall q w r, In q reqs -> Shows (q_head q) r -> Ordinary fbs (on_request w r)) ->
  Between umax kmax vmax fbs defs fresh past st ->
  Forall (GoodRequest encoded (cfg_limits cfg umax kmax vmax) max) reqs ->
  stream (k_client st) = concat (map wire reqs) ++ tail ->
  exists n outs closed st1,
    Conversation defs on_request reqs (k_world st) past outs (k_world st1) closed /\
    cl_out (k_client st1) = cl_out (k_client st) ++ outs /\
    match closed with
    | None => (exists past', Between umax kmax vmax fbs defs fresh past' st1) /\ stream (k_client st1) = tail /\
              forall fuel, serve cparse max cfg on_request on_error (n + fuel)%nat st = serve cparse max cfg on_request on_error fuel st1
    | Some _ => forall fuel, serve cparse max cfg on_request on_error (n + fuel)%nat st = close_with cparse max on_error EndWrite st1
    end.
Proof. exact conversation. Qed.
Print Assumptions C07_boundary_partial.

(* C07: a new connection is between two requests *)
Theorem C07_new_connection : forall CS W (fresh : CS -> Prop) umax kmax vmax fbs defs enc cs c (w : W),
  fresh cs -> writes_ok c ->
  Between umax kmax vmax fbs defs fresh [] (new_conn umax kmax vmax fbs defs enc cs c w).
Proof. exact new_between. Qed.
Print Assumptions C07_new_connection.

Example C07_case : let net := [firstn 20 ex_stream; firstn 50 (skipn 20 ex_stream); []; skipn 70 ex_stream] in
  Forall (GoodRequest chunked_text ex_lim 100) ex_reqs /\ Unfinished ex_lim (B "GE") /\
  Between 100 100 100 64 [] kfresh [] (ex_server net) /\ (forall w r, Ordinary 64 (ex_echo w r)) /\
  stream (k_client (ex_server net)) = concat (map wire ex_reqs) ++ B "GE" /\
  fst (ex_serve ex_echo net) = EndRead /\
  answers (ex_serve ex_echo net) = [ok_text (B "HTTP/1.1") (B "secret"); ok_text (B "HTTP/1.1") []; ok_text (B "HTTP/1.1") (B "abc")] /\
  k_world (snd (ex_serve ex_echo net)) = [(B "/a", B "secret"); (B "/b", []); (B "/c", B "abc"); (B "error", B "/c")].
Proof.
  split; [exact ex_reqs_good|]. split; [exact ex_unfinished|]. split; [apply ex_between|]. split; [exact ex_ordinary|].
  vm_compute. repeat split; reflexivity.
Qed.

(* ------------------------------------------------------------------------------------ *)
(* C47: for the first upgrade on a connection: what is sent in one piece is a 101 response
   followed by the response in the version switched to.  The 101 response names the version
   of the request (r_proto), not the one switched to.  Missing: that, further upgrades (the
   refutations below), hijacking handlers. *)
Theorem C47_first_partial : forall CS cparse max W (on_request : W -> request -> hprog W) (on_error : W -> request -> http_error -> hprog W)
    fbs defs past (st : conn CS W) extra resp w r' b' c',
  let r := p_req (k_parser st) in
  Served fbs defs past (k_ser st) -> distinct_names defs -> s_buff (k_ser st) = [] -> k_pre st = new_response ->
  r_proto r = HTTP10 \/ r_proto r = HTTP11 -> r_upgrade r = HTTP10 \/ r_upgrade r = HTTP11 ->
  (forall w r, Modest (on_request w r)) -> (forall w r er, Modest (on_error w r er)) ->
  run_handler cparse max (on_request (k_world st) r) r (body_init (k_body st) r) (client_unread (k_client st) extra) = HDone resp w r' b' c' ->
  r_hijacked r' = false -> f_att (not_nil resp) = None -> write_ok (k_client st) ->
  cl_out (k_client (left_with (on_head cparse max on_request on_error st extra))) =
  cl_out (k_client st) ++
  [response_text (version_of (r_proto r)) (B "101") (B "Switching Protocol")
     ([(B "Connection", B "upgrade"); (B "Upgrade", version_of (r_proto r))] ++
      remaining (past ++ [B "Connection"; B "Upgrade"]) defs ++ [(B "Content-Type", B "text/html")]) [] ++
   response_text (version_of (r_upgrade r)) (itoa_N (f_code (not_nil resp))) (sent_reason (not_nil resp))
     (sent_fields defs (past ++ [B "Connection"; B "Upgrade"]) (not_nil resp))
     (if method_eqb (r_method r') HEAD then [] else f_body (not_nil resp))].
Proof. exact upgrade_answer. Qed.
Print Assumptions C47_first_partial.

(* C47: false: the 101 response to an upgrade from 1.0 to 1.1 names HTTP/1.0 *)
Theorem C47_names_old_refuted : exists out,
  out = crlf_lines [B "HTTP/1.0 101 Switching Protocol"; B "Connection: upgrade"; B "Upgrade: HTTP/1.0"; B "Content-Type: text/html"; []]
        ++ ok_text (B "HTTP/1.1") [] /\
  ex_up10_keep = crlf_lines [B "GET / HTTP/1.0"; B "Upgrade: HTTP/1.1"; []] /\
  answers (ex_serve ex_echo [ex_up10_keep]) = [out].
Proof. eexists. split; [reflexivity|]. split; [reflexivity|]. vm_compute. reflexivity. Qed.
Print Assumptions C47_names_old_refuted.

(* C47: false: the second 101 response on a connection repeats the headers of the first *)
Theorem C47_accumulates_refuted : exists out1 out2,
  out2 = crlf_lines [B "HTTP/1.0 101 Switching Protocol"; B "Connection: upgrade"; B "Upgrade: HTTP/1.0";
                     B "Connection: upgrade"; B "Upgrade: HTTP/1.0"; B "Content-Type: text/html"; []]
         ++ ok_text (B "HTTP/1.1") [] /\
  answers (ex_serve ex_echo [ex_up10_keep; ex_up10_keep]) = [out1; out2].
Proof. eexists _, _. split; [reflexivity|]. vm_compute. reflexivity. Qed.
Print Assumptions C47_accumulates_refuted.

(* C47: false: after a switch to HTTP/1.1 the next response says HTTP/1.0 again *)
Theorem C47_later_refuted : exists out1,
  answers (ex_serve ex_echo [ex_up10_keep; ex_get10]) = [out1; ok_text (B "HTTP/1.0") []].
Proof. eexists. vm_compute. reflexivity. Qed.
Print Assumptions C47_later_refuted.

(* C47: false: no 101 response when the handler takes over the connection *)
Theorem C47_hijack_refuted :
  ex_serve ex_tunnel [ex_up10_keep ++ B "tail"] = (EndHijack, snd (ex_serve ex_tunnel [ex_up10_keep ++ B "tail"])) /\
  answers (ex_serve ex_tunnel [ex_up10_keep ++ B "tail"]) = [B "raw tail"].
Proof. split; vm_compute; reflexivity. Qed.
Print Assumptions C47_hijack_refuted.

(* ------------------------------------------------------------------------------------ *)
(* C59: whichever request the handler takes the connection over for, and whatever it has done
   with the body before: what it takes over is the connection at the first byte behind the
   request, nothing having been written; when it returns, the loop ends and leaves the
   connection exactly as the handler did. *)
Theorem C59_hijack : forall CS cparse encoded fresh inside,
  DecoderOk CS cparse encoded fresh inside -> forall max, (max < two64)%Z ->
  forall cfg umax kmax vmax fbs defs W (on_request : W -> request -> hprog W) (on_error : W -> request -> http_error -> hprog W),
  forall past (st : conn CS W) q rest k,
  Between umax kmax vmax fbs defs fresh past st -> GoodRequest encoded (cfg_limits cfg umax kmax vmax) max q ->
  stream (k_client st) = wire q ++ rest ->
  (forall r, Shows (q_head q) r -> Takeover k (on_request (k_world st) r)) ->
  exists n r b c, stream c = rest /\ cl_out c = cl_out (k_client st) /\ r_hijacked r = true /\
    forall resp w r' b' c', run_handler cparse max (k None) r b c = HDone resp w r' b' c' -> r_hijacked r' = true ->
    forall fuel, (n <= fuel)%nat -> exists st1,
      serve cparse max cfg on_request on_error fuel st = (EndHijack, st1) /\ k_client st1 = c' /\ k_world st1 = w.
Proof. exact hijacked. Qed.
Print Assumptions C59_hijack.

(* C59: reading from the connection delivers what is in front of it, in order; reads fail only
   at its end *)
Theorem C59_reads : forall n c ds ok c', take_reads n c = (ds, ok, c') ->
  stream c = concat ds ++ (if ok then stream c' else []).
Proof. exact reads_stream. Qed.
Print Assumptions C59_reads.

Example C59_case : let net := [wire (hd (Req ex_get_head [] []) ex_reqs) ++ B "raw1"; B "raw2"] in
  stream (k_client (ex_server net)) = wire (hd (Req ex_get_head [] []) ex_reqs) ++ B "raw1raw2" /\
  (forall w r, Takeover ex_take (ex_tunnel w r)) /\
  fst (ex_serve ex_tunnel net) = EndHijack /\ answers (ex_serve ex_tunnel net) = [B "raw raw1"] /\
  stream (k_client (snd (ex_serve ex_tunnel net))) = B "raw2".
Proof.
  split; [vm_compute; reflexivity|]. split; [exact ex_takeover|]. vm_compute. repeat split; reflexivity.
Qed.

(* ------------------------------------------------------------------------------------ *)
(* C60: false.  The same malformed request, first on a connection and after a HEAD request:
   the error handler is told the path of the HEAD request, and the response is sent without
   its body although its length is announced. *)
Theorem C60_refuted : exists bad head out1 out2,
  bad = repeat x41 200 /\ head = crlf_lines [B "HEAD /x HTTP/1.1"; []] /\
  out1 = crlf_lines [B "HTTP/1.1 400 Bad Request"; B "Content-Type: text/html"; B "Content-Length: 24"; []] ++ B "request line is too long" /\
  out2 = crlf_lines [B "HTTP/1.1 400 Bad Request"; B "Content-Type: text/html"; B "Content-Length: 24"; []] /\
  answers (ex_serve ex_echo [bad]) = [out1] /\
  k_world (snd (ex_serve ex_echo [bad])) = [(B "error", [])] /\
  answers (ex_serve ex_echo [head; bad]) = [ok_text (B "HTTP/1.1") []; out2] /\
  k_world (snd (ex_serve ex_echo [head; bad])) = [(B "/x", []); (B "error", B "/x")].
Proof.
  eexists _, _, _, _. split; [reflexivity|]. split; [reflexivity|]. split; [reflexivity|]. split; [reflexivity|].
  vm_compute. repeat split; reflexivity.
Qed.
Print Assumptions C60_refuted.

(* ------------------------------------------------------------------------------------ *)
(* C61: a malformed head gets exactly one write, and the connection ends: no further byte is
   read and no further handler called.  The write is the response of the error handler,
   without a version if that of the request is unknown (SentIn).  The error handler is assumed to
   leave body and connection alone and to answer without attachment; it may recover. *)
Theorem C61_bad_head_partial : forall CS (cparse : CS -> bytes -> bool -> CS * (bytes * bytes * option cerr)) (fresh : CS -> Prop) max
    cfg umax kmax vmax fbs defs, distinct_names defs ->
  forall W (on_request : W -> request -> hprog W) (on_error : W -> request -> http_error -> hprog W),
  forall past (st : conn CS W) p' e rs,
  Between umax kmax vmax fbs defs fresh past st -> Detached (on_error (k_world st) (p_req p') e) ->
  feed cfg (k_parser st) (reads_of (k_client st)) = (RErr p' e, rs) ->
  exists n resp w' r' out st1, detached_result (on_error (k_world st) (p_req p') e) (p_req p') = Some (resp, w', r') /\
    (forall fuel, (n <= fuel)%nat -> serve cparse max cfg on_request on_error fuel st = (EndParse, st1)) /\
    k_world st1 = w' /\ cl_out (k_client st1) = cl_out (k_client st) ++ [out] /\
    SentIn defs past (r_proto r') r' (not_nil resp) [out].
Proof. exact bad_head. Qed.
Print Assumptions C61_bad_head_partial.

(* C61: false for an unknown version: the response has no version *)
Theorem C61_refuted : exists out,
  out = crlf_lines [B "505 HTTP Version Not Supported"; B "Content-Type: text/html"; B "Content-Length: 25"; []] ++ B "protocol is not supported" /\
  answers (ex_serve ex_echo [crlf_lines [B "GET / HTTP/9.9"; []]]) = [out].
Proof. eexists. split; [reflexivity|]. vm_compute. reflexivity. Qed.
Print Assumptions C61_refuted.

Example C61_case : let net := [crlf_lines [B "GET / HTTP/1.1"; []] ++ B "FOOBAR / HT"; B "TP/1.1" ++ CRLF; crlf_lines [B "GET / HTTP/1.1"; []]] in
  (forall w r e, Detached (ex_error w r e)) /\ fst (ex_serve ex_echo net) = EndParse /\
  answers (ex_serve ex_echo net) = [ok_text (B "HTTP/1.1") [];
    crlf_lines [B "HTTP/1.1 501 Not Implemented"; B "Content-Type: text/html"; B "Content-Length: 31"; []] ++ B "request method is not supported"].
Proof.
  split; [intros w r e; apply Dt_ret; intros f H; injection H as <-; reflexivity|].
  vm_compute. repeat split; reflexivity.
Qed.
