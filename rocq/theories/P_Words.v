(* Property C90: which header fields the server acts on, by the words it compares. *)
From Verif Require Import M_Base M_Status M_Method M_Proto M_KeyValue M_Query M_Request M_Parser M_Words S_Head S_Words L_Base L_Head L_Words
  P_Parser.

(* C90: for all names: comparing packed words is comparing bytes: the parser reads the value as
   the length of the body for exactly the names that read as content-length, and a field changes
   what the server does exactly if its name reads as one of the six others; then it changes that
   and nothing else. *)
Theorem C90_length : forall key, length_by_words key = true <-> ReadsAs (B "content-length") key.
Proof. intro key. rewrite length_words. apply reads_as. reflexivity. Qed.
Print Assumptions C90_length.

Theorem C90_fields : forall cfg key value r, let r' := header_by_words cfg key value r in
  kv_pairs (r_headers r') = kv_pairs (r_headers r) ++ [(key, value)] /\
  (ReadsAs (B "upgrade") key -> r_upgrade r' = choose_upgrade value) /\
  (~ ReadsAs (B "upgrade") key -> r_upgrade r' = r_upgrade r) /\
  (ReadsAs (B "connection") key -> r_connection r' = value) /\
  (~ ReadsAs (B "connection") key -> r_connection r' = r_connection r) /\
  (ReadsAs (B "content-type") key -> r_content_type r' = value) /\
  (~ ReadsAs (B "content-type") key -> r_content_type r' = r_content_type r) /\
  (ReadsAs (B "trailer") key -> enc_trailer (r_encoding r') = true) /\
  (~ ReadsAs (B "trailer") key -> enc_trailer (r_encoding r') = enc_trailer (r_encoding r)) /\
  (ReadsAs (B "content-encoding") key ->
     enc_content (r_encoding r') = fst (parse_encoding_string value (c_max_enc_tokens cfg))) /\
  (~ ReadsAs (B "content-encoding") key -> enc_content (r_encoding r') = enc_content (r_encoding r)) /\
  (ReadsAs (B "transfer-encoding") key ->
     (enc_transfer (r_encoding r'), enc_chunked (r_encoding r')) = parse_encoding_string value (c_max_enc_tokens cfg)) /\
  (~ ReadsAs (B "transfer-encoding") key ->
     enc_transfer (r_encoding r') = enc_transfer (r_encoding r) /\ enc_chunked (r_encoding r') = enc_chunked (r_encoding r)) /\
  r_method r' = r_method r /\ r_path r' = r_path r /\ r_query r' = r_query r /\ r_params r' = r_params r /\
  r_proto r' = r_proto r /\ r_content_length r' = r_content_length r /\ r_ctx r' = r_ctx r /\ r_env r' = r_env r /\
  r_hijacked r' = r_hijacked r.
Proof. intros cfg key value r r'. exact (header_effect cfg key value r). Qed.
Print Assumptions C90_fields.

(* C90: the parser of the other properties compares the names byte by byte; it is the same one *)
Theorem C90_parser : forall cfg key value r,
  length_by_words key = key_is key (B "content-length") /\ header_by_words cfg key value r = apply_header cfg key value r.
Proof. intros. split; [apply length_words|apply header_words]. Qed.
Print Assumptions C90_parser.

(* C90, the part that holds of names without CR: exactly the names equal to content-length up to
   letter case are taken for it (and likewise for the other fields) *)
Theorem C90_names_partial : forall key name, ~ In CR key ->
  In name [B "content-length"; B "transfer-encoding"; B "content-encoding"; B "content-type"; B "connection"; B "upgrade"; B "trailer"] ->
  (ReadsAs name key <-> equal_fold key name = true).
Proof.
  intros key name Hk Hn. rewrite <- (key_is_fold name key); [|repeat (destruct Hn as [<-|Hn]; [reflexivity|]); destruct Hn|exact Hk].
  symmetry. apply reads_as. repeat (destruct Hn as [<-|Hn]; [reflexivity|]). destruct Hn.
Qed.
Print Assumptions C90_names_partial.

(* C90, false as it stands: CR is taken for the hyphen: a field whose name no other
   implementation takes for Content-Length or Transfer-Encoding frames the body. *)
Theorem C90_refuted_length : exists d p e, ReadsAs (B "content-length") (B "Content" ++ CR :: B "Length") /\
  d = B "POST / HTTP/1.1" ++ CRLF ++ B "Content" ++ CR :: B "Length: 5" ++ CRLF ++ CRLF ++ B "hello" /\
  parse ex_cfg (new_parser 100 60 60 new_request) d = RDone p e /\ r_content_length (p_req p) = 5%Z /\ e = B "hello" /\
  equal_fold (B "Content" ++ CR :: B "Length") (B "content-length") = false.
Proof.
  eexists _, _, _. split; [apply C90_length; vm_compute; reflexivity|]. split; [reflexivity|].
  split; [vm_compute; reflexivity|]. vm_compute. repeat split.
Qed.
Print Assumptions C90_refuted_length.
(* C90: likewise Transfer<CR>Encoding: chunked makes the body chunked *)
Theorem C90_refuted_transfer : exists d p e,
  d = B "POST / HTTP/1.1" ++ CRLF ++ B "Transfer" ++ CR :: B "Encoding: chunked" ++ CRLF ++ CRLF /\
  parse ex_cfg (new_parser 100 60 60 new_request) d = RDone p e /\ enc_chunked (r_encoding (p_req p)) = true /\
  equal_fold (B "Transfer" ++ CR :: B "Encoding") (B "transfer-encoding") = false.
Proof. eexists _, _, _. split; [reflexivity|]. split; [vm_compute; reflexivity|]. vm_compute. repeat split. Qed.
Print Assumptions C90_refuted_transfer.

Example C90_case : length_by_words (B "CoNtEnT-LeNgTh") = true /\ length_by_words (B "content_length") = false /\
  cContent = 0x2d746e65746e6f63%N /\ r_connection (header_by_words ex_cfg (B "CONNECTION") (B "close") new_request) = B "close" /\
  r_connection (header_by_words ex_cfg (B "CONNECTIOM") (B "close") new_request) = [].
Proof. vm_compute. repeat split. Qed.
