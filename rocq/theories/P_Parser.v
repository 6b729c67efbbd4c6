(* Properties C01 - C06: the request head parser. *)
From Verif Require Import M_Base M_Status M_Method M_Proto M_KeyValue M_Query M_Request M_Parser
  S_Head S_Parser S_Limits S_Tokens L_Parser L_Head L_Safe L_Tokens L_ParserProps.

(* ------------------------------------------------------------------------------------ *)
(* C01: for every well-formed head within the limits, every division of the stream
   "head, then anything" into reads, and every state of a parser waiting for a request: the
   head is completed, the request means what the head says, exactly the bytes behind the head
   are left, and the parser is ready for the next request. *)
Theorem C01_segmentation : forall cfg umax kmax vmax p h reads tail,
  Ready umax kmax vmax p -> wf_head h -> fits (cfg_limits cfg umax kmax vmax) h ->
  concat reads = render_head h ++ tail ->
  exists p' extra rs,
    feed cfg p reads = (RDone p' extra, rs) /\ extra ++ concat rs = tail /\
    Ready umax kmax vmax p' /\ Means (p_req p) h (p_req p').
Proof. exact segmentation_means. Qed.
Print Assumptions C01_segmentation.

(* C01: any two divisions give the very same request object *)
Theorem C01_same_for_all_segmentations : forall cfg umax kmax vmax p h reads1 reads2 tail1 tail2,
  Ready umax kmax vmax p -> wf_head h -> fits (cfg_limits cfg umax kmax vmax) h ->
  concat reads1 = render_head h ++ tail1 -> concat reads2 = render_head h ++ tail2 ->
  exists p1 p2 e1 e2 rs1 rs2,
    feed cfg p reads1 = (RDone p1 e1, rs1) /\ feed cfg p reads2 = (RDone p2 e2, rs2) /\
    p_req p1 = p_req p2.
Proof. exact segmentation_unique. Qed.
Print Assumptions C01_same_for_all_segmentations.

(* C01: before the last byte of the head has arrived, the parser only asks for more *)
Theorem C01_prefix_pending : forall cfg umax kmax vmax p h reads more,
  Ready umax kmax vmax p -> wf_head h -> fits (cfg_limits cfg umax kmax vmax) h ->
  concat reads ++ more = render_head h -> more <> [] ->
  exists p', feed cfg p reads = (RPending p', []).
Proof. exact prefix_pending. Qed.
Print Assumptions C01_prefix_pending.

Theorem C01_new_parser_ready : forall umax kmax vmax r, Ready umax kmax vmax (new_parser umax kmax vmax r).
Proof. exact new_parser_ready. Qed.
Print Assumptions C01_new_parser_ready.

Definition ex_cfg : hcfg := HCfg 50 8192 15.
Definition ex_head : head :=
  Head POST (B "/a%20b") (B "/a b") (Some (B "q=1&r=%41")) HTTP11 true
    [HLine (B "Host") 1 (B "localhost:8080") true;
     HLine (B "CONTENT-length") 0 (B "13") false;
     HLine (B "x-empty") 0 [] true;
     HLine (B "Connection") 3 (B "close ") true;
     HLine (B "Transfer-Encoding") 1 (B "gzip , Chunked") true]
    true.
Example C01_case_head : wf_head ex_head /\ fits (cfg_limits ex_cfg 100 60 60) ex_head /\
  render_head ex_head = B "POST /a%20b?q=1&r=%41 HTTP/1.1" ++ CRLF ++
    B "Host: localhost:8080" ++ CRLF ++ B "CONTENT-length:13" ++ [LF] ++ B "x-empty:" ++ CRLF ++
    B "Connection:   close " ++ CRLF ++ B "Transfer-Encoding: gzip , Chunked" ++ CRLF ++ CRLF.
Proof. exact ex_head_ok. Qed.
(* one byte at a time *)
Example C01_case_run : exists p' , feed ex_cfg (new_parser 100 60 60 new_request)
    (map (fun c => [c]) (render_head ex_head ++ B "body")) = (RDone p' [], map (fun c => [c]) (B "body"))
  /\ r_path (p_req p') = B "/a b" /\ r_content_length (p_req p') = 13%Z /\
  enc_chunked (r_encoding (p_req p')) = true.
Proof. eexists. vm_compute. repeat split. Qed.

(* ------------------------------------------------------------------------------------ *)
(* C02: false as it stands.  Two short requests with bare LF line ends make the parser index
   an empty slice; nothing recovers the panic. *)
Theorem C02_refuted : exists d1 d2,
  d1 = B "GET / " ++ [LF] /\ d2 = B "GET / HTTP/1.1" ++ CRLF ++ B "X:" ++ [LF] /\
  forall r, parse ex_cfg (new_parser 16384 65536 65536 r) d1 = RPanic /\
            parse ex_cfg (new_parser 16384 65536 65536 r) d2 = RPanic.
Proof. eexists _, _. split; [reflexivity|]. split; [reflexivity|]. intros r. vm_compute. split; reflexivity. Qed.
Print Assumptions C02_refuted.

(* C02, the part that holds: on any stream in which no LF comes directly after a space or a
   colon (in particular when every LF follows a CR), nothing panics, however the stream is
   divided into reads, and every call returns. *)
Theorem C02_no_panic_partial : forall cfg umax kmax vmax p reads, Ready umax kmax vmax p ->
  (forall a c b, concat reads = a ++ c :: LF :: b -> c <> SP /\ c <> x3a) ->
  exists p', parser_after (fst (feed cfg p reads)) = Some p'.
Proof. exact feed_returns. Qed.
Print Assumptions C02_no_panic_partial.

(* C02: the parser never loops: the step bound of the model is never what ends a call *)
Theorem C02_terminates : forall cfg p d, parse cfg p d <> RStuck.
Proof. exact parse_not_stuck. Qed.
Print Assumptions C02_terminates.

Example C02_case : concat [B "GET  / x"; CRLF; B "a b" ++ CRLF; B ":"] = B "GET  / x" ++ CRLF ++ B "a b" ++ CRLF ++ B ":"
  /\ exists p e, feed ex_cfg (new_parser 100 60 60 new_request) [B "GET  / x"; CRLF; B "a b" ++ CRLF; B ":"]
       = (RErr p e, [B "a b" ++ CRLF; B ":"]).
Proof. split; [reflexivity|]. eexists _, _. vm_compute. reflexivity. Qed.

(* ------------------------------------------------------------------------------------ *)
(* C03: whatever arrives, after every sequence of reads the parser's own buffers and the
   request handed on stay within the configured maxima. *)
Theorem C03_limits : forall cfg umax kmax vmax p reads p',
  (0 <= c_max_headers cfg)%Z -> (0 <= c_max_enc_tokens cfg)%Z ->
  (0 <= umax)%Z -> (0 <= kmax)%Z -> (0 <= vmax)%Z ->
  Ready umax kmax vmax p -> kv_pairs (r_headers (p_req p)) = [] ->
  Within (cfg_limits cfg umax kmax vmax) (p_req p) ->
  parser_after (fst (feed cfg p reads)) = Some p' ->
  (held (p_start p') <= umax)%Z /\ (held (p_key p') <= kmax)%Z /\ (held (p_val p') <= vmax)%Z /\
  Within (cfg_limits cfg umax kmax vmax) (p_req p').
Proof. exact feed_limits. Qed.
Print Assumptions C03_limits.

(* C03: the hypotheses hold for the first request and again after each cleared request *)
Theorem C03_initial : forall cfg umax kmax vmax, (0 <= c_max_headers cfg)%Z -> (0 <= c_max_enc_tokens cfg)%Z ->
  (0 <= umax)%Z -> (0 <= kmax)%Z -> (0 <= vmax)%Z ->
  kv_pairs (r_headers new_request) = [] /\ Within (cfg_limits cfg umax kmax vmax) new_request.
Proof. exact within_new. Qed.
Print Assumptions C03_initial.
Theorem C03_next : forall cfg umax kmax vmax r, (0 <= c_max_headers cfg)%Z -> (0 <= c_max_enc_tokens cfg)%Z ->
  (0 <= umax)%Z -> (0 <= kmax)%Z -> (0 <= vmax)%Z ->
  Within (cfg_limits cfg umax kmax vmax) r ->
  kv_pairs (r_headers (request_clear r)) = [] /\ Within (cfg_limits cfg umax kmax vmax) (request_clear r).
Proof. exact within_clear. Qed.
Print Assumptions C03_next.

Example C03_case : exists p e, feed (HCfg 1 8192 15) (new_parser 100 60 60 new_request)
  [B "GET / HTTP/1.1" ++ CRLF ++ B "A: b" ++ CRLF ++ B "C: d"] = (RErr p e, []) /\ e = ErrTooManyHeaders /\
  kv_pairs (r_headers (p_req p)) = [(B "A", B "b")].
Proof. eexists _, _. vm_compute. repeat split. Qed.

(* ------------------------------------------------------------------------------------ *)
(* C04: with one Content-Length line holding a decimal number below 2^63, that number is the
   length of the request. *)
Theorem C04_value_partial : forall cfg umax kmax vmax p h l reads tail,
  Ready umax kmax vmax p -> wf_head h -> fits (cfg_limits cfg umax kmax vmax) h ->
  In l (h_lines h) -> is_content_length l = true ->
  concat reads = render_head h ++ tail ->
  exists p' extra rs, feed cfg p reads = (RDone p' extra, rs) /\
    r_content_length (p_req p') = dec_value (hl_value l).
Proof. exact content_length_value. Qed.
Print Assumptions C04_value_partial.
(* Missing for the full C04: repeated headers and numbers of 2^63 and more.  These are
   accepted with a length nobody sent, even a negative one. *)
Theorem C04_refuted_repeated : exists d p e,
  d = B "POST / HTTP/1.1" ++ CRLF ++ B "Content-Length: 1" ++ CRLF ++ B "Content-Length: 2" ++ CRLF ++ CRLF /\
  parse ex_cfg (new_parser 100 60 60 new_request) d = RDone p e /\ r_content_length (p_req p) = 12%Z.
Proof. eexists _, _, _. split; [reflexivity|]. vm_compute. split; reflexivity. Qed.
Print Assumptions C04_refuted_repeated.
Theorem C04_refuted_wrap : exists d1 d2 p1 e1 p2 e2,
  d1 = B "POST / HTTP/1.1" ++ CRLF ++ B "Content-Length: 18446744073709551621" ++ CRLF ++ CRLF /\
  d2 = B "POST / HTTP/1.1" ++ CRLF ++ B "Content-Length: 9223372036854775808" ++ CRLF ++ CRLF /\
  parse ex_cfg (new_parser 100 60 60 new_request) d1 = RDone p1 e1 /\ r_content_length (p_req p1) = 5%Z /\
  parse ex_cfg (new_parser 100 60 60 new_request) d2 = RDone p2 e2 /\ (r_content_length (p_req p2) < 0)%Z.
Proof.
  eexists _, _, _, _, _, _. split; [reflexivity|]. split; [reflexivity|].
  split; [vm_compute; reflexivity|]. split; [vm_compute; reflexivity|].
  split; [vm_compute; reflexivity|]. vm_compute. reflexivity.
Qed.
Print Assumptions C04_refuted_wrap.
Example C04_case : In (HLine (B "CONTENT-length") 0 (B "13") false) (h_lines ex_head) /\
  is_content_length (HLine (B "CONTENT-length") 0 (B "13") false) = true /\ dec_value (B "13") = 13%Z.
Proof. vm_compute. tauto. Qed.

(* ------------------------------------------------------------------------------------ *)
(* C05: false as it stands: a line without a colon is glued to the next one. *)
Theorem C05_refuted : exists d p e k v,
  d = B "GET / HTTP/1.1" ++ CRLF ++ B "A" ++ CRLF ++ B "B: c" ++ CRLF ++ CRLF /\
  parse ex_cfg (new_parser 100 60 60 new_request) d = RDone p e /\
  kv_pairs (r_headers (p_req p)) = [(k, v)] /\ In CR k /\ In LF k.
Proof. eexists _, _, _, _, _. split; [reflexivity|]. vm_compute. repeat split; tauto. Qed.
Print Assumptions C05_refuted.

(* C05, the part that holds: when every line of the head has a colon (the head is
   well-formed), the names the handler sees are names of lines, without line breaks. *)
Theorem C05_names_partial : forall cfg umax kmax vmax p h reads tail,
  Ready umax kmax vmax p -> kv_pairs (r_headers (p_req p)) = [] ->
  wf_head h -> fits (cfg_limits cfg umax kmax vmax) h ->
  concat reads = render_head h ++ tail ->
  exists p' extra rs, feed cfg p reads = (RDone p' extra, rs) /\
    forall k v, In (k, v) (kv_pairs (r_headers (p_req p'))) ->
      ~ In CR k /\ ~ In LF k /\ exists l, In l (h_lines h) /\ hl_key l = k /\ hl_value l = v.
Proof. exact names_clean. Qed.
Print Assumptions C05_names_partial.

(* ------------------------------------------------------------------------------------ *)
(* C06: a Transfer-Encoding line with a list of elements (white space around them allowed)
   within the token limit: the request shows exactly the elements, and is framed as chunked
   iff one of them is "chunked" in any letter case. *)
Theorem C06_transfer_encoding_partial : forall cfg umax kmax vmax p h reads tail ls1 l ls2 es,
  Ready umax kmax vmax p -> wf_head h -> fits (cfg_limits cfg umax kmax vmax) h ->
  h_lines h = ls1 ++ l :: ls2 -> named (B "transfer-encoding") l = true ->
  Forall (fun x => named (B "transfer-encoding") x = false) ls2 ->
  es <> [] -> Forall pad_ok es -> hl_value l = comma_join (map pad_text es) ->
  concat reads = render_head h ++ tail ->
  exists p' extra rs, feed cfg p reads = (RDone p' extra, rs) /\
    enc_transfer (r_encoding (p_req p')) = map pad_token es /\
    enc_chunked (r_encoding (p_req p')) = existsb (fun e => equal_fold (pad_token e) (B "chunked")) es.
Proof. exact transfer_encoding_value. Qed.
Print Assumptions C06_transfer_encoding_partial.
(* Missing for the full C06: "chunked" is itself shown among the codings, and above the token
   limit the header is ignored instead of refused, so that the body is not read as chunked: *)
Theorem C06_refuted_limit : exists d p e,
  d = B "POST / HTTP/1.1" ++ CRLF ++ B "Transfer-Encoding: a,b,chunked" ++ CRLF ++ CRLF /\
  parse (HCfg 50 8192 2) (new_parser 100 60 60 new_request) d = RDone p e /\
  enc_chunked (r_encoding (p_req p)) = false /\ enc_transfer (r_encoding (p_req p)) = [].
Proof. eexists _, _, _. split; [reflexivity|]. vm_compute. repeat split. Qed.
Print Assumptions C06_refuted_limit.
Theorem C06_refuted_chunked_listed : exists d p e,
  d = B "POST / HTTP/1.1" ++ CRLF ++ B "Transfer-Encoding: gzip, chunked" ++ CRLF ++ CRLF /\
  parse ex_cfg (new_parser 100 60 60 new_request) d = RDone p e /\
  enc_transfer (r_encoding (p_req p)) = [B "gzip"; B "chunked"].
Proof. eexists _, _, _. split; [reflexivity|]. vm_compute. repeat split. Qed.
Print Assumptions C06_refuted_chunked_listed.
Example C06_case : exists es, es <> [] /\ Forall pad_ok es /\
  B "gzip , Chunked" = comma_join (map pad_text es) /\
  existsb (fun e => equal_fold (pad_token e) (B "chunked")) es = true.
Proof. exact ex_transfer_list. Qed.
