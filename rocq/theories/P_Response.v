(* Properties C19 - C28, C48, C57, C58: the response builder and the serializer. *)
From Verif Require Import M_Base M_Status M_Method M_Proto M_Client M_KeyValue M_Query M_Request M_Parser M_Response
  M_Serializer M_Middleware S_KeyValue S_Chunk S_Response L_Base L_Response L_Response2 L_Response3 L_Framed L_Attach P_Parser L_ResponseProps L_CookieExact S_Line L_StatusLine L_ChunkExact.


(* ---------------------------------------------------------------- C19 *)
(* Every cookie yields one line: name=value, then exactly the attributes that were set,
   separated by "; ".  [MaxAge] stands where RFC 6265 has Max-Age. *)
Theorem C19_line_partial : forall c s, render_cookie c s =
  put (B "Set-Cookie" ++ B ": " ++ set_cookie_text (B "MaxAge") c ++ CRLF) s.
Proof. exact render_cookie_text. Qed.
Print Assumptions C19_line_partial.
(* With no MaxAge set the attributes have their standard names, and a browser reading the line
   gets back the name, the value and exactly the attributes (for texts without ';' and without
   white space at their ends). *)
Theorem C19_read_back_partial : forall c, ck_maxage c = 0%Z -> PlainCookie c ->
  set_cookie_text (B "MaxAge") c = set_cookie_text (B "Max-Age") c /\
  read_set_cookie (set_cookie_text (B "MaxAge") c) = Some (ck_name c, ck_value c, attributes (B "Max-Age") c).
Proof. exact cookie_standard. Qed.
Print Assumptions C19_read_back_partial.
(* every cookie is read back with the attribute under the name MaxAge *)
Theorem C19_read_all_partial : forall c, PlainCookie c ->
  read_set_cookie (set_cookie_text (B "MaxAge") c) = Some (ck_name c, ck_value c, attributes (B "MaxAge") c).
Proof. exact cookie_read_all. Qed.
Print Assumptions C19_read_all_partial.
(* C19: exactly which cookies a client reads back, name, value and attributes, as they were set:
   those without MaxAge whose texts have no ';' and no white space at their ends, and no '=' in
   the name. *)
Theorem C19_exact : forall c,
  read_set_cookie (set_cookie_text (B "MaxAge") c) = Some (ck_name c, ck_value c, attributes (B "Max-Age") c) <-> PlainCookie c /\ ck_maxage c = 0%Z.
Proof. exact cookie_exact. Qed.
Print Assumptions C19_exact.
(* Missing, and false: the standard name of the attribute is Max-Age. *)
Theorem C19_refuted : exists c, PlainCookie c /\ ck_maxage c = 60%Z /\
  s_buff (render_cookie c (Ser [] None 16 [])) = B "Set-Cookie: id=a1; MaxAge=60" ++ CRLF /\
  set_cookie_text (B "MaxAge") c <> set_cookie_text (B "Max-Age") c /\
  (forall n v l, read_set_cookie (set_cookie_text (B "MaxAge") c) = Some (n, v, l) -> ~ In (B "Max-Age", Some (B "60")) l).
Proof. exact cookie_max_age_wrong. Qed.
Print Assumptions C19_refuted.
Example C19_case : PlainCookie ex_cookie /\
  s_buff (render_cookie ex_cookie (Ser [] None 16 [])) =
  B "Set-Cookie: id=a1; Path=/x; Domain=h.org; SameSite=Lax; Secure; HttpOnly" ++ CRLF.
Proof. exact ex_cookie_ok. Qed.

(* ---------------------------------------------------------------- C20 *)
(* What is written for a response without attachment, whatever it contains: the text waiting in
   the buffer, then status line, one line per field, an empty line and the body, in one write;
   the buffer is empty afterwards.  [past]: header names of earlier responses (see C26). *)
Theorem C20_shape : forall fbs defs past s p r f c res s' c' f',
  Served fbs defs past s -> distinct_names defs -> p <> PUnknown -> f_att f = None -> write_ok c ->
  write_response p r f s c = (res, s', c', f') ->
  cl_out c' = cl_out c ++ [s_buff s ++ response_text (version_of p) (itoa_N (f_code f)) (sent_reason f) (sent_fields defs past f)
    (if method_eqb (r_method r) HEAD then [] else f_body f)] /\ s_buff s' = [].
Proof. exact plain_shape. Qed.
Print Assumptions C20_shape.
(* A client reading it finds the code, exactly these fields and exactly the body, and is then
   at the first byte behind the response. *)
Theorem C20_framed_partial : forall fbs defs past s p r f c res s' c' f',
  Served fbs defs past s -> distinct_names defs -> Forall clean_field defs ->
  p <> PUnknown -> (100 <= f_code f <= 999)%N -> Renderable f ->
  Forall (fun e => ~ framing_name (fst e)) (f_headers f ++ defs) -> f_te f = [] ->
  (bodyless (f_code f) = true -> f_body f = []) -> f_att f = None -> write_ok c ->
  write_response p r f s c = (res, s', c', f') ->
  exists out, cl_out c' = cl_out c ++ [s_buff s ++ out] /\ s_buff s' = [] /\
    forall rest, read_response (method_eqb (r_method r) HEAD) (out ++ rest) =
      Some (Msg (version_of p) (f_code f) (sent_reason f) (map trimmed (sent_fields defs past f))
                (if method_eqb (r_method r) HEAD then [] else f_body f), rest).
Proof. exact plain_framed. Qed.
Print Assumptions C20_framed_partial.
(* C20: exactly which responses without an attachment are read back as they were meant: status
   codes of three digits, text that is no structure, and (unless asked with HEAD) no body where
   none may be, the framing left to the server otherwise. *)
Theorem C20_exact : forall fbs defs past s p r f c res s' c' f',
  Served fbs defs past s -> distinct_names defs -> p <> PUnknown -> f_att f = None -> write_ok c ->
  write_response p r f s c = (res, s', c', f') ->
  let head := method_eqb (r_method r) HEAD in let rem := remaining (past ++ names f) defs in
  exists out, cl_out c' = cl_out c ++ [s_buff s ++ out] /\
    ((forall rest, read_response head (out ++ rest) =
        Some (Msg (version_of p) (f_code f) (sent_reason f) (map trimmed (sent_fields defs past f)) (if head then [] else f_body f), rest)) <->
     (100 <= f_code f <= 999)%N /\ Renderable f /\ Forall clean_field rem /\
     (head = false -> if bodyless (f_code f) then f_body f = [] else f_te f = [] /\ Forall (fun e => ~ framing_name (fst e)) (f_headers f ++ rem))).
Proof. exact plain_exact. Qed.
Print Assumptions C20_exact.
Theorem C20_buffer_empty : forall p r f s c res s' c' f', write_response p r f s c = (res, s', c', f') -> s_buff s' = [].
Proof. exact write_clears. Qed.
Print Assumptions C20_buffer_empty.
(* Missing for the full C20, and false: (1) a Content-Length header set by the handler is sent
   beside the computed one; *)
Theorem C20_two_lengths_refuted : exists f, resp_ops [RHeader (B "Content-Length") [B "1"]; RBody (B "hello")] new_response = Some f /\
  Renderable f /\ exists out, out_of (write_response HTTP11 ex_req f ex_ser ex_conn) = [out] /\
  out = B "HTTP/1.1 200 OK" ++ CRLF ++ B "Content-Length: 1" ++ CRLF ++ B "Server: indigo" ++ CRLF ++
        B "Content-Type: text/html" ++ CRLF ++ B "Content-Length: 5" ++ CRLF ++ CRLF ++ B "hello" /\
  read_response false out = None.
Proof. exact two_lengths. Qed.
Print Assumptions C20_two_lengths_refuted.
(* (2) a body set on a 204 response is sent, and is read as the start of the next response; *)
Theorem C20_bodyless_refuted : exists f, resp_ops [RCode 204%N; RBody (B "hi")] new_response = Some f /\ Renderable f /\
  exists out m, out_of (write_response HTTP11 ex_req f ex_ser ex_conn) = [out] /\
  read_response false out = Some (m, B "hi").
Proof. exact bodyless_body. Qed.
Print Assumptions C20_bodyless_refuted.
(* (3) Transfer-Encoding set by the handler is announced, but the body is not encoded. *)
Theorem C20_transfer_encoding_refuted : exists f, resp_ops [RTransferEncoding (B "chunked"); RBody (B "hello")] new_response = Some f /\
  Renderable f /\ exists out, out_of (write_response HTTP11 ex_req f ex_ser ex_conn) = [out] /\
  out = B "HTTP/1.1 200 OK" ++ CRLF ++ B "Server: indigo" ++ CRLF ++
        B "Content-Type: text/html" ++ CRLF ++ B "Transfer-Encoding: chunked" ++ CRLF ++ B "Content-Length: 5" ++ CRLF ++ CRLF ++ B "hello".
Proof. exact te_unencoded. Qed.
Print Assumptions C20_transfer_encoding_refuted.
Example C20_case : Served 64 [(B "Server", B "indigo")] [] ex_ser /\ Renderable ex_resp /\
  exists out, out_of (write_response HTTP11 ex_req ex_resp ex_ser ex_conn) = [out] /\
  read_response false (out ++ B "HTTP/1.1 ...") = Some (Msg (B "HTTP/1.1") 404 (B "Not Found")
    [(B "X-A", B "b"); (B "server", B "mine"); (B "Content-Type", B "text/html");
     (B "Set-Cookie", B "id=a1; Path=/x; Domain=h.org; SameSite=Lax; Secure; HttpOnly"); (B "Content-Length", B "5")]
    (B "hello"), B "HTTP/1.1 ...").
Proof. exact ex_resp_ok. Qed.

(* ---------------------------------------------------------------- C21 *)
Theorem C21_header_lines_partial : forall fbs defs past s p r f c res s' c' f',
  Served fbs defs past s -> distinct_names defs -> Forall clean_field defs -> p <> PUnknown -> Renderable f ->
  f_att f = None -> write_ok c -> write_response p r f s c = (res, s', c', f') ->
  exists out, cl_out c' = cl_out c ++ [s_buff s ++ out] /\
    header_lines out = Some (List.length (sent_fields defs past f)).
Proof. exact plain_header_lines. Qed.
Print Assumptions C21_header_lines_partial.
(* C21: exactly when a reader sees the lines that were meant and no others: when there is no CR
   or LF in any of the texts. *)
Theorem C21_exact : forall fbs defs past s p r f c res s' c' f',
  Served fbs defs past s -> distinct_names defs -> p <> PUnknown -> f_att f = None -> write_ok c ->
  write_response p r f s c = (res, s', c', f') ->
  exists out body, cl_out c' = cl_out c ++ [s_buff s ++ out] /\ body = (if method_eqb (r_method r) HEAD then [] else f_body f) /\
    ((forall rest, cut_lines (S (List.length (out ++ rest))) (out ++ rest) =
        Some ((version_of p ++ [SP] ++ itoa_N (f_code f) ++ [SP] ++ sent_reason f) :: map (fun e => fst e ++ B ": " ++ snd e) (sent_fields defs past f), body ++ rest)) <->
     Forall (fun e => clean (fst e) /\ clean (snd e)) (f_headers f ++ remaining (past ++ names f) defs) /\
     clean (f_ctype f) /\ clean (f_te f) /\ Forall clean_cookie (f_cookies f)).
Proof. exact plain_lines. Qed.
Print Assumptions C21_exact.
(* Missing for the full C21, and false: a value with a line break adds a header line. *)
Theorem C21_refuted : exists v f out, resp_ops [RHeader (B "X-A") [v]] new_response = Some f /\
  out_of (write_response HTTP11 ex_req f ex_ser ex_conn) = [out] /\
  header_lines out = Some (S (List.length (sent_fields [(B "Server", B "indigo")] [] f))) /\
  exists m rest, read_response false out = Some (m, rest) /\ In (B "Set-Cookie", B "admin=1") (m_fields m).
Proof. exact injected. Qed.
Print Assumptions C21_refuted.
(* With the HTTPSOnly middleware the value comes from the decoded request path: a single plain
   HTTP request makes the server send a header of the client's choice. *)
Theorem C21_https_only_refuted : exists text p extra f out m rest,
  text = B "GET /%0d%0aSet-Cookie:admin=1 HTTP/1.1" ++ CRLF ++ B "Host: h" ++ CRLF ++ CRLF /\
  feed ex_cfg (new_parser 100 60 60 new_request) [text] = (RDone p extra, []) /\
  https_only [] [] (p_req p) = Some f /\
  out_of (write_response HTTP11 (p_req p) f ex_ser ex_conn) = [out] /\
  read_response false out = Some (m, rest) /\ In (B "Set-Cookie", B "admin=1") (m_fields m).
Proof. exact injected_https. Qed.
Print Assumptions C21_https_only_refuted.

(* ---------------------------------------------------------------- C22 *)
(* For every reader that ends with EOF (pieces of any sizes that fit the buffer, also empty
   ones, the last one returned together with EOF), every previous use of the serializer and
   every buffer size: the writes after the head form a chunked body that decodes to exactly what
   the reader produced. *)
Theorem C22_chunked_partial : forall fbs defs past s p r f a pieces last more c res s' c' f',
  Served fbs defs past s -> distinct_names defs -> p <> PUnknown -> f_att f = Some a -> (at_size a <= 0)%Z ->
  at_events a = reader_of pieces last ++ more -> r_method r <> HEAD ->
  Forall (S_Response.fits (Z.to_nat (Z.max 16 fbs))) (pieces ++ [last]) -> writes_ok c ->
  write_response p r f s c = (res, s', c', f') ->
  res = WOk /\ exists ws, cl_out c' = cl_out c ++
      [s_buff s ++ response_text (version_of p) (itoa_N (f_code f)) (sent_reason f) (attachment_fields defs past f a) []] ++ ws /\
    Chunked (concat ws) (concat pieces ++ last).
Proof. exact chunked_attachment. Qed.
Print Assumptions C22_chunked_partial.
(* A reader that fails leaves a body that lacks its last chunk, and the connection is closed:
   the client cannot take it for complete. *)
Theorem C22_reader_failure : forall pieces last more mem c, Forall (S_Response.fits (List.length mem)) (pieces ++ [last]) -> writes_ok c ->
  exists mem' c' ws, write_chunked (map (fun d => (d, None)) pieces ++ (last, Some RFail) :: more) mem c = (WClose, mem', c', more) /\
    cl_out c' = cl_out c ++ ws /\ forall w t, Chunked w t -> Chunked (concat ws ++ w) (concat pieces ++ last ++ t).
Proof. exact chunked_fail. Qed.
Print Assumptions C22_reader_failure.
(* C22: exactly which readers are sent, of those that end with EOF and return no more than they
   were given room for (the buffer but for twelve bytes): those that never return 2^32 bytes or
   more at once.  The others end the process. *)
Theorem C22_exact : forall fbs defs past s p r f a pieces last more c res s' c' f',
  Served fbs defs past s -> distinct_names defs -> p <> PUnknown -> f_att f = Some a -> (at_size a <= 0)%Z ->
  at_events a = reader_of pieces last ++ more -> r_method r <> HEAD ->
  Forall (fun d => List.length d + 12 <= Z.to_nat (Z.max 16 fbs))%nat (pieces ++ [last]) -> writes_ok c ->
  write_response p r f s c = (res, s', c', f') ->
  let short d := (N.of_nat (List.length d) < 4294967296)%N in
  (Forall short (pieces ++ [last]) /\ res = WOk /\ exists ws, cl_out c' = cl_out c ++
      [s_buff s ++ response_text (version_of p) (itoa_N (f_code f)) (sent_reason f) (attachment_fields defs past f a) []] ++ ws /\
    Chunked (concat ws) (concat pieces ++ last)) \/
  (~ Forall short (pieces ++ [last]) /\ res = WPanic).
Proof. exact chunked_exact. Qed.
Print Assumptions C22_exact.
(* Missing, and false: with a buffer above 4 GiB a reader can return a piece whose size needs
   nine hexadecimal digits, and the slice bounds become negative. *)
Theorem C22_refuted : exists n, forall mem c, List.length mem = (n + 12)%nat ->
  res_of4 (write_chunked [(repeat x61 n, Some REof)] mem c) = WPanic.
Proof. exact chunk_too_big. Qed.
Print Assumptions C22_refuted.
Example C22_case : exists h, out_of (write_response HTTP11 ex_req (set_att (Some ex_att) new_response) ex_ser ex_conn) =
  [h; B "6" ++ CRLF ++ B "hello " ++ CRLF; B "5" ++ CRLF ++ B "world" ++ CRLF; B "0" ++ CRLF ++ CRLF].
Proof. eexists. vm_compute. reflexivity. Qed.

(* ---------------------------------------------------------------- C23 *)
Theorem C23_fixed_partial : forall fbs defs past s p r f a pieces more c res s' c' f',
  Served fbs defs past s -> distinct_names defs -> p <> PUnknown -> f_att f = Some a -> (0 < at_size a)%Z ->
  at_events a = reader_of pieces [] ++ more -> r_method r <> HEAD ->
  Forall (fun d => (List.length d <= Z.to_nat (Z.max 16 fbs))%nat) pieces -> writes_ok c ->
  write_response p r f s c = (res, s', c', f') ->
  res = WOk /\ cl_out c' = cl_out c ++
      [s_buff s ++ response_text (version_of p) (itoa_N (f_code f)) (sent_reason f) (attachment_fields defs past f a) []] ++ pieces.
Proof. exact fixed_attachment. Qed.
Print Assumptions C23_fixed_partial.
(* Missing for the full C23, and false: data returned together with EOF, which io.Reader
   allows, is lost; the body is then shorter than its Content-Length. *)
Theorem C23_refuted : exists a, at_events a = reader_of [B "hello "] (B "world") /\ at_size a = 11%Z /\
  exists h, out_of (write_response HTTP11 ex_req (set_att (Some a) new_response) ex_ser ex_conn) = [h; B "hello "] /\
  res_of (write_response HTTP11 ex_req (set_att (Some a) new_response) ex_ser ex_conn) = WOk.
Proof. exists (Att (reader_of [B "hello "] (B "world")) 11 true 0). split; [reflexivity|]. split; [reflexivity|]. eexists. vm_compute. split; reflexivity. Qed.
Print Assumptions C23_refuted.
Example C23_case : exists h, out_of (write_response HTTP11 ex_req
   (set_att (Some (Att (reader_of [B "hello "; B "world"] []) 11 true 0)) new_response) ex_ser ex_conn) = [h; B "hello "; B "world"].
Proof. eexists. vm_compute. reflexivity. Qed.

(* ---------------------------------------------------------------- C24 *)
(* Closed exactly once whenever sending the body has begun and the reader returns. *)
Theorem C24_closed_partial : forall p r f a s c res s' c' f', f_att f = Some a -> r_method r <> HEAD -> write_ok c ->
  write_response p r f s c = (res, s', c', f') -> res <> WPanic -> res <> WStuck ->
  exists a', f_att f' = Some a' /\ at_closes a' = (if at_closer a then S (at_closes a) else at_closes a).
Proof. exact attachment_closed. Qed.
Print Assumptions C24_closed_partial.
(* Missing for the full C24, and false: cookies are not sent; *)
Theorem C24_cookies_refuted : exists f, f_cookies f = [ex_cookie] /\
  exists h m, hd [] (out_of (write_response HTTP11 ex_req f ex_ser ex_conn)) = h /\
  read_response true h = Some (m, []) /\ all_values (m_fields m) (B "set-cookie") = [].
Proof. exact att_no_cookies. Qed.
Print Assumptions C24_cookies_refuted.
(* the attachment stays open for HEAD and when the head cannot be written; *)
Theorem C24_not_closed_refuted :
  (exists f a, f_att f = Some a /\ at_closer a = true /\ at_closes a = 0%nat /\
     f_att (snd (write_response HTTP11 (set_method HEAD ex_req) f ex_ser ex_conn)) = Some a) /\
  (exists f a, f_att f = Some a /\ at_closer a = true /\ at_closes a = 0%nat /\
     f_att (snd (write_response HTTP11 ex_req f ex_ser (new_client [] [Some 0%nat]))) = Some a).
Proof. exact att_not_closed. Qed.
Print Assumptions C24_not_closed_refuted.
(* the connection is left open although a plain response would close it. *)
Theorem C24_persistence_refuted : exists r f, f_att f = Some ex_att /\ r_connection r = B "close" /\
  res_of (write_response HTTP11 r f ex_ser ex_conn) = WOk /\
  res_of (write_response HTTP11 r (set_att None f) ex_ser ex_conn) = WClose.
Proof. exact att_persistence. Qed.
Print Assumptions C24_persistence_refuted.

(* ---------------------------------------------------------------- C25 *)
Theorem C25_head_is_get_cut : forall p r f s c, f_att f = None -> r_method r = GET -> write_ok c ->
  let r' := set_method HEAD r in
  forall res s1 c1 f1 res' s2 c2 f2, write_response p r f s c = (res, s1, c1, f1) -> write_response p r' f s c = (res', s2, c2, f2) ->
  res = res' /\ s1 = s2 /\
  exists out, cl_out c2 = cl_out c ++ [s_buff s ++ out] /\ cl_out c1 = cl_out c ++ [s_buff s ++ out ++ f_body f] /\
    exists out', out = out' ++ CRLF ++ CRLF.
Proof. exact head_is_get_cut. Qed.
Print Assumptions C25_head_is_get_cut.
Example C25_case : out_of (write_response HTTP11 (set_method HEAD ex_req) (set_rbody (B "abc") new_response) ex_ser ex_conn) =
  [B "HTTP/1.1 200 OK" ++ CRLF ++ B "Server: indigo" ++ CRLF ++ B "Content-Type: text/html" ++ CRLF ++ B "Content-Length: 3" ++ CRLF ++ CRLF].
Proof. reflexivity. Qed.

(* ---------------------------------------------------------------- C26 *)
(* On any connection: a default header is sent, once, exactly in those responses before and
   including which no response had a header of its name. *)
Theorem C26_defaults_partial : forall fbs defs past s p r f c res s' c' f' k v,
  Served fbs defs past s -> distinct_names defs -> p <> PUnknown -> f_att f = None -> write_ok c ->
  write_response p r f s c = (res, s', c', f') -> In (k, v) defs ->
  (forall k', In k' [B "Content-Type"; B "Transfer-Encoding"; B "Set-Cookie"; B "Content-Length"] -> ~ same_key k' k) ->
  exists fs, cl_out c' = cl_out c ++ [s_buff s ++ response_text (version_of p) (itoa_N (f_code f)) (sent_reason f) fs
    (if method_eqb (r_method r) HEAD then [] else f_body f)] /\
   all_values fs k = all_values (f_headers f) k ++ (if named (past ++ names f) k then [] else [v]).
Proof. exact defaults_sent. Qed.
Print Assumptions C26_defaults_partial.
(* C26: exactly when a response has the values it should have, its own ones if it overrides the
   default and else the default: when it overrides it, or no earlier response on the connection
   did. *)
Theorem C26_exact : forall fbs defs past s p r f c res s' c' f' k v,
  Served fbs defs past s -> distinct_names defs -> p <> PUnknown -> f_att f = None -> write_ok c ->
  write_response p r f s c = (res, s', c', f') -> In (k, v) defs ->
  (forall k', In k' [B "Content-Type"; B "Transfer-Encoding"; B "Set-Cookie"; B "Content-Length"] -> ~ same_key k' k) ->
  exists fs, cl_out c' = cl_out c ++ [s_buff s ++ response_text (version_of p) (itoa_N (f_code f)) (sent_reason f) fs
    (if method_eqb (r_method r) HEAD then [] else f_body f)] /\
   (all_values fs k = (if named (names f) k then all_values (f_headers f) k else [v]) <-> named (names f) k = true \/ named past k = false).
Proof. exact defaults_exact. Qed.
Print Assumptions C26_exact.
(* Missing for the full C26, and false: once overridden, a default never comes back; *)
Theorem C26_never_back_refuted : exists f1 f2 s1,
  s1 = ser_of (write_response HTTP11 ex_req f1 ex_ser ex_conn) /\ f_headers f2 = [] /\
  out_of (write_response HTTP11 ex_req f2 s1 ex_conn) =
  [B "HTTP/1.1 200 OK" ++ CRLF ++ B "Content-Type: text/html" ++ CRLF ++ B "Content-Length: 0" ++ CRLF ++ CRLF].
Proof. exact default_lost. Qed.
Print Assumptions C26_never_back_refuted.
(* of two defaults that differ only in case, one is sent although the response has the header; *)
Theorem C26_case_refuted : exists defs f m, f_headers f = [(B "SERVER", B "x")] /\
  read_response false (concat (out_of (write_response HTTP11 ex_req f (new_serializer 64 defs) ex_conn))) = Some (m, []) /\
  all_values (m_fields m) (B "server") = [B "x"; B "b"].
Proof. exact default_case. Qed.
Print Assumptions C26_case_refuted.
(* a default Content-Type is sent beside the response's own one. *)
Theorem C26_content_type_refuted : exists m,
  read_response false (concat (out_of (write_response HTTP11 ex_req (set_ctype (B "a/b") new_response)
    (new_serializer 64 [(B "Content-Type", B "c/d")]) ex_conn))) = Some (m, []) /\
  all_values (m_fields m) (B "content-type") = [B "c/d"; B "a/b"].
Proof. eexists. vm_compute. split; reflexivity. Qed.
Print Assumptions C26_content_type_refuted.

(* ---------------------------------------------------------------- C27 *)
Theorem C27_persistence : forall p r f s c res s' c' f', f_att f = None -> r_upgrade r = PUnknown -> write_ok c ->
  write_response p r f s c = (res, s', c', f') ->
  (res = WOk \/ res = WClose) /\
  (res = WOk <-> (p = HTTP10 /\ same_key (r_connection r) (B "keep-alive")) \/ (p = HTTP11 /\ ~ same_key (r_connection r) (B "close"))).
Proof. exact persistence. Qed.
Print Assumptions C27_persistence.
(* A connection that switches protocols stays open whatever the headers say. *)
Theorem C27_upgrade : forall p r f s c res s' c' f', f_att f = None -> r_upgrade r <> PUnknown -> write_ok c ->
  write_response p r f s c = (res, s', c', f') -> res = WOk.
Proof. exact persistence_upgrade. Qed.
Print Assumptions C27_upgrade.
Example C27_case : res_of (write_response HTTP11 (set_connection (B "Close") ex_req) new_response ex_ser ex_conn) = WClose /\
  res_of (write_response HTTP10 (set_connection (B "Keep-Alive") ex_req) new_response ex_ser ex_conn) = WOk.
Proof. split; reflexivity. Qed.

(* ---------------------------------------------------------------- C28 *)
(* Every response to a request of a known protocol starts with version, code and a phrase. *)
Theorem C28_status_line_partial : forall p r f s c res s' c' f', p <> PUnknown -> write_ok c ->
  write_response p r f s c = (res, s', c', f') ->
  exists out more, cl_out c' = cl_out c ++ (s_buff s ++ out) :: more /\
    exists rest, out = version_of p ++ [SP] ++ itoa_N (f_code f) ++ [SP] ++ sent_reason f ++ CRLF ++ rest.
Proof. exact line_written. Qed.
Print Assumptions C28_status_line_partial.
(* three digits, and the standard phrase, for every standard code except 101 *)
Theorem C28_standard_partial : forall f, f_code f <> 101%N -> (exists ph, In (f_code f, ph) standard_phrases) ->
  In (f_code f, sent_reason f) standard_phrases /\ List.length (itoa_N (f_code f)) = 3%nat.
Proof. exact reason_standard. Qed.
Print Assumptions C28_standard_partial.
(* C28: exactly when the line is well-formed ([StatusLine]: a version, three digits and the
   phrase asked for), for all responses with and without attachments and all requests: when the
   version is known, the code has three digits, and a custom phrase is the one that would have
   been sent without it; 101 has the right phrase only if it is also given as a custom one. *)
Theorem C28_exact : forall p r f s c res s' c' f', write_ok c ->
  write_response p r f s c = (res, s', c', f') ->
  exists out more, cl_out c' = cl_out c ++ (s_buff s ++ out) :: more /\
    ((exists line rest, out = line ++ CRLF ++ rest /\ StatusLine (f_code f) (f_status f) line) <->
     p <> PUnknown /\ (100 <= f_code f <= 999)%N /\ match f_status f with [] => f_code f <> 101%N | q => q = status_text (f_code f) end).
Proof. exact line_exact. Qed.
Print Assumptions C28_exact.
(* Missing for the full C28, and false: a custom phrase is not sent; *)
Theorem C28_custom_refuted : exists f, resp_ops [RStatus (B "Fine")] new_response = Some f /\
  out_of (write_response HTTP11 ex_req f (new_serializer 64 []) ex_conn) =
  [B "HTTP/1.1 200 OK" ++ CRLF ++ B "Content-Type: text/html" ++ CRLF ++ B "Content-Length: 0" ++ CRLF ++ CRLF].
Proof. eexists. split; reflexivity. Qed.
Print Assumptions C28_custom_refuted.
(* 101 has a non-standard phrase; *)
Theorem C28_switching_refuted : ~ In (101%N, sent_reason (set_code 101%N new_response)) standard_phrases.
Proof. exact switching_not_standard. Qed.
Print Assumptions C28_switching_refuted.
(* a request of an unsupported protocol is answered without a version; *)
Theorem C28_version_refuted : exists p out, 
  feed ex_cfg (new_parser 100 60 60 new_request) [B "GET / HTTP/3.0" ++ CRLF] = (RErr p ErrUnsupportedProtocol, []) /\
  out_of (write_response (r_proto (p_req p)) (p_req p) (set_code 505%N new_response) (new_serializer 64 []) ex_conn) = [out] /\
  firstn 8 out = B "505 HTTP".
Proof. exact no_version. Qed.
Print Assumptions C28_version_refuted.
(* a code of other than three digits is sent as it is. *)
Theorem C28_digits_refuted : exists f, resp_ops [RCode 7%N] new_response = Some f /\
  forall m rest, read_response false (concat (out_of (write_response HTTP11 ex_req f ex_ser ex_conn))) <> Some (m, rest).
Proof. exact one_digit. Qed.
Print Assumptions C28_digits_refuted.

(* ---------------------------------------------------------------- C48 *)
(* Whatever was done with the response object before (any history of builder calls, and a
   response that was sent), the object obtained from Respond is a new response. *)
Theorem C48_clean : forall f, fields_clear f = Fields 200%N [] (B "text/html") [] [] [] [] None.
Proof. exact clear_is_new. Qed.
Print Assumptions C48_clean.
Theorem C48_clean_after_sending : forall ops f0 f p r s c res s' c' f',
  resp_ops ops f0 = Some f -> write_response p r f s c = (res, s', c', f') -> fields_clear f' = new_response.
Proof. exact clear_after_sending. Qed.
Print Assumptions C48_clean_after_sending.
Example C48_case : exists f, resp_ops [RCode 404%N; RStatus (B "x"); RHeader (B "A") [B "b"; B "c"]; RCookie [ex_cookie];
    RWrite (B "body"); RAttachment (Some ex_att); RTransferEncoding (B "gzip"); RContentType (B "a/b")] new_response = Some f /\
  f <> new_response /\ fields_clear f = new_response.
Proof. eexists. split; [reflexivity|]. split; [discriminate|reflexivity]. Qed.

(* ---------------------------------------------------------------- C57 *)
(* HTTP/1.0 clients do not know the chunked coding; it is sent to them all the same.  Proved:
   attachments of known size are sent without it. *)
Theorem C57_known_size_partial : forall defs past f a, (0 < at_size a)%Z -> f_te f = [] ->
  Forall (fun e => ~ same_key (fst e) (B "transfer-encoding")) (f_headers f ++ defs) ->
  all_values (attachment_fields defs past f a) (B "transfer-encoding") = [].
Proof. exact known_size_no_te. Qed.
Print Assumptions C57_known_size_partial.
Theorem C57_refuted : exists h w, out_of (write_response HTTP10 ex_req (set_att (Some ex_att) new_response) (new_serializer 64 []) ex_conn) = h :: w /\
  h = B "HTTP/1.0 200 OK" ++ CRLF ++ B "Content-Type: text/html" ++ CRLF ++ B "Transfer-Encoding: chunked" ++ CRLF ++ CRLF.
Proof. eexists. eexists. vm_compute. split; reflexivity. Qed.
Print Assumptions C57_refuted.

(* ---------------------------------------------------------------- C58 *)
(* TryFile: a descriptor that was opened is handed over to the response when there is no
   error. *)
Theorem C58_handed_over_partial : forall path r f g e leak, resp_try_file path r f = (g, e, leak) ->
  (e = None -> leak = false /\ exists a, f_att g = Some a /\ at_closer a = true) /\
  (e <> None -> g = f).
Proof. exact file_handed_over. Qed.
Print Assumptions C58_handed_over_partial.
(* Missing, and false: the descriptor of a directory is neither closed nor handed over. *)
Theorem C58_refuted : forall path f, exists g e, resp_try_file path FDir f = (g, Some e, true).
Proof. intros. eexists. eexists. reflexivity. Qed.
Print Assumptions C58_refuted.
