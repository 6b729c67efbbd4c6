(* Properties C14, C23, C32, C44, C57, C78: exactly what becomes of every input; C09, C72, C73, C82: that the
   guards of their partial theorems are needed. *)
From Verif Require Import M_Base M_Status M_Method M_Proto M_KeyValue M_Query M_Request M_Uri M_Parser M_Client M_Body
  M_Response M_Serializer M_Suit M_Path M_Radix M_Router M_Escape
  S_Values S_Static S_KeyValue S_Chunk S_Head S_Parser S_Body S_Response S_Conn S_Split S_Routes S_Router S_Serve S_Exact S_Tools M_Tools S_ToolParse
  L_Router5 L_Serve L_ServeEx L_Chunk L_ConnProps L_ResponseProps L_Exact L_ToolParse L_Loose P_Parser.

(* ---------------------------------------------------------------- C14 *)
(* Every '%' takes the two bytes behind it, digits or not, those that are none counting as 0; a
   text is refused exactly if a '%' has less than two bytes behind it. *)
Theorem C14_exact : forall s,
  (forall d, uri_decode s = Some d <-> LooselyDecodes s d) /\
  (uri_decode s = None <-> exists a d t, LooselyDecodes a d /\ (List.length t < 2)%nat /\ s = a ++ x25 :: t).
Proof. intros s. split; [intros d; apply decodes_exactly|apply refused_exactly]. Qed.
Print Assumptions C14_exact.
Example C14_exact_case : LooselyDecodes (B "/%zz%4g%41") (B "/" ++ [x00; x40; x41]) /\ uri_decode (B "/%zz%4g%41") = Some (B "/" ++ [x00; x40; x41]) /\
  uri_decode (B "/%41%4") = None /\ LooselyDecodes (B "/%41") (B "/A").
Proof.
  split; [apply (LD_char (x2f)); [discriminate|]; apply (LD_escape x7a x7a); apply (LD_escape x34 x67); apply (LD_escape x34 x31); constructor|].
  split; [vm_compute; reflexivity|]. split; [vm_compute; reflexivity|]. apply (LD_char x2f); [discriminate|]. apply (LD_escape x34 x31). constructor.
Qed.

(* ---------------------------------------------------------------- C32 *)
(* Exactly: a path with something other than '/' from its third byte on loses the slashes at its
   end; every other path is left as it is. *)
Theorem C32_exact : forall p,
  (exists q c k, (2 <= List.length q)%nat /\ c <> SLASH /\ p = q ++ c :: repeat SLASH k /\ normalize p = q ++ [c]) \/
  (Forall (eq SLASH) (skipn 2 p) /\ normalize p = p).
Proof. exact normalize_exactly. Qed.
Print Assumptions C32_exact.
Example C32_exact_case : normalize (B "/ab//") = B "/ab" /\ normalize (B "/a//") = B "/a//" /\ normalize (B "///") = B "///" /\ normalize (B "///a/") = B "///a".
Proof. vm_compute. repeat split. Qed.

(* ---------------------------------------------------------------- C44 *)
(* Exactly: printable ASCII is copied; a multi-byte character of UTF-8 becomes "\?" followed by its
   bytes but the first; every other byte becomes '\' and its letter. *)
Theorem C44_exact : forall s e, escape s = e <-> Escapes s e.
Proof. exact escapes_exactly. Qed.
Print Assumptions C44_exact.
Example C44_exact_case : Escapes [x61; x0a; xc3; xa9; xff] [x61; x5c; x6e; x5c; x3f; xa9; x5c; x3f] /\ ~ Escapes [x0a] [x0a].
Proof. split; [apply C44_exact; vm_compute; reflexivity|]. intros H. apply C44_exact in H. vm_compute in H. discriminate H. Qed.

(* ---------------------------------------------------------------- C23 *)
(* For every reader that ends: the body is exactly what the reads before the last returned; what
   comes with the end of the file or with an error is dropped; an error closes the connection. *)
Theorem C23_exact : forall fbs defs past s p r f a (pieces : list bytes) (last : bytes) e more c res s' c' f',
  Served fbs defs past s -> distinct_names defs -> p <> PUnknown -> f_att f = Some a -> (0 < at_size a)%Z ->
  at_events a = map (fun d => (d, None)) pieces ++ (last, Some e) :: more -> r_method r <> HEAD ->
  Forall (fun d => (List.length d <= Z.to_nat (Z.max 16 fbs))%nat) pieces -> writes_ok c ->
  write_response p r f s c = (res, s', c', f') ->
  res = (match e with REof => WOk | RFail => WClose end) /\ cl_out c' = cl_out c ++
      [s_buff s ++ response_text (version_of p) (itoa_N (f_code f)) (sent_reason f) (attachment_fields defs past f a) []] ++ pieces.
Proof. exact any_reader. Qed.
Print Assumptions C23_exact.
Example C23_exact_case : exists h, let x := write_response HTTP11 ex_req
   (set_att (Some (Att [(B "hello ", None); (B "world", Some RFail)] 11 true 0)) new_response) ex_ser ex_conn in
  out_of x = [h; B "hello "] /\ res_of x = WClose.
Proof. eexists. vm_compute. split; reflexivity. Qed.

(* ---------------------------------------------------------------- C57 *)
(* Exactly, whatever the version: an attachment of unknown size is announced as chunked, one of
   known size with the coding the handler named, if any. *)
Theorem C57_exact : forall defs past f a,
  Forall (fun e => ~ same_key (fst e) (B "transfer-encoding")) (f_headers f ++ defs) ->
  all_values (attachment_fields defs past f a) (B "transfer-encoding") =
  if (0 <? at_size a)%Z then (match f_te f with [] => [] | t => [t] end) else [B "chunked"].
Proof. exact transfer_exactly. Qed.
Print Assumptions C57_exact.
Example C57_exact_case : all_values (attachment_fields [] [] (set_te (B "gzip") new_response) (Att [] 5 false 0)) (B "Transfer-Encoding") = [B "gzip"] /\
  all_values (attachment_fields [] [] (set_te (B "gzip") new_response) (Att [] (-1) false 0)) (B "Transfer-Encoding") = [B "chunked"].
Proof. vm_compute. split; reflexivity. Qed.

(* ---------------------------------------------------------------- C72 *)
(* The root path of an application with parameters is answered with 405 and an empty Allow list,
   though no route is registered for it. *)
Theorem C72_refuted : exists x q, Running greeter x /\ GoodRequest chunked_text ex_lim 100 q /\ h_path (q_head q) = B "/" /\
  (forall m h, ~ In (B "/", m, h) (registered greeter)) /\
  cl_out (k_client (snd (shop_serve x [wire q]))) =
    [crlf_lines [B "HTTP/1.1 405 Method Not Allowed"; B "Allow: "; B "Content-Type: text/html"; B "Content-Length: 0"; []]].
Proof.
  eexists. exists (Req (Head GET (B "/") (B "/") None HTTP11 true [] true) [] []).
  split; [apply start_running; vm_compute; reflexivity|]. split; [|split; [reflexivity|split; [intros m h [H|[H|[]]]; discriminate H|vm_compute; reflexivity]]].
  constructor; cbn [q_head q_wire q_text].
  - head_ok.
  - head_fits.
  - reflexivity.
  - vm_compute. discriminate.
  - vm_compute. repeat split; discriminate.
Qed.
Print Assumptions C72_refuted.

(* ---------------------------------------------------------------- C73 *)
(* A request line that ends with a space gets no response: the goroutine of the connection
   panics. *)
Theorem C73_refuted : exists x, Running shop x /\ fst (shop_serve x [B "GET / " ++ LF :: B "junk"]) = EndPanic /\
  cl_out (k_client (snd (shop_serve x [B "GET / " ++ LF :: B "junk"]))) = [].
Proof. eexists. split; [apply start_running; vm_compute; reflexivity|]. split; vm_compute; reflexivity. Qed.
Print Assumptions C73_refuted.

(* ---------------------------------------------------------------- C82 *)
(* A request none of whose lines is named Content-Length has a length, and the next five bytes are
   taken for its body: a CR inside the name counts as '-'. *)
Theorem C82_refuted : exists cfg p t q, Ready 100 60 60 p /\
  t = B "POST / HTTP/1.1" ++ CRLF ++ B "Content" ++ CR :: B "Length: 5" ++ CRLF ++ CRLF /\
  feed cfg p [t] = (RDone q [], []) /\ Forall (fun e => ~ same_key (fst e) (B "content-length")) (kv_pairs (r_headers (p_req q))) /\
  r_content_length (p_req q) = 5%Z.
Proof.
  exists (HCfg 10 100 5), (new_parser 100 60 60 new_request). do 2 eexists. split; [repeat split|]. split; [reflexivity|].
  split; [vm_compute; reflexivity|]. split; [|reflexivity]. vm_compute. repeat constructor; discriminate.
Qed.
Print Assumptions C82_refuted.

(* ---------------------------------------------------------------- C09 *)
(* A length that cannot be allocated: the handler that asks for the body does not get an error,
   and the client no response: the goroutine of the connection panics. *)
Theorem C09_connection_refuted : exists x net, Running shop x /\
  net = [crlf_lines [B "POST /a HTTP/1.1"; B "Content-Length: 9223372036854775807"; []] ++ B "x"] /\
  fst (shop_serve x net) = EndPanic /\ cl_out (k_client (snd (shop_serve x net))) = [].
Proof. do 2 eexists. split; [apply start_running; vm_compute; reflexivity|]. split; [reflexivity|]. split; vm_compute; reflexivity. Qed.
Print Assumptions C09_connection_refuted.
(* Exactly: asking for the whole of a body that is not chunked panics if and only if more room is
   needed than there is and cannot be had; whatever the handler would do next, it is not done. *)
Theorem C09_alloc_exact : forall CS (cparse : CS -> bytes -> bool -> CS * (bytes * bytes * option cerr)) max (W : Type) (k : bout -> hprog W) r (b : body CS) c,
  (run_handler cparse max (HBody OBytes k) r b c = HPanic r b c /\ body_bytes cparse max b c = (BRPanic, b, c)) <->
  (bd_eof b = false /\ bd_chunked b = false /\ bd_cap b < bd_clen b /\ 281474976710656 < bd_clen b)%Z.
Proof. exact alloc_exactly. Qed.
Print Assumptions C09_alloc_exact.

(* ---------------------------------------------------------------- C78 *)
(* Exactly, for every text: Parse always returns, with the parts of the request or the error that
   the text says, and a text says only one thing. *)
Theorem C78_exact : forall raw, exists v u, tool_parse raw = Some v /\ Returned v u /\ ToolSays raw u /\ forall u', ToolSays raw u' -> u' = u.
Proof. exact parse_exactly. Qed.
Print Assumptions C78_exact.
Example C78_exact_case : ToolSays (crlf_lines [B "GET /a HTTP/1.1"; B "connection: close"; []] ++ B "abc")
    (inr (TParts (B "GET") (B "/a") (B "HTTP/1.1") [(B "connection", B "close")] (B "abc"))) /\
  ToolSays (B "GET") (inl TNoMethod) /\ ToolSays (B "GET ") (inl TNoMethod) /\
  tool_parse (crlf_lines [B "GET /a HTTP/1.1"; B "Content-Length: +3"] ++ B "abc") = Some (inl TNoBreak).
Proof.
  split; [|split; [|split; [|vm_compute; reflexivity]]].
  - destruct (parse_exactly (crlf_lines [B "GET /a HTTP/1.1"; B "connection: close"; []] ++ B "abc")) as (v & u & H1 & H2 & H3 & _).
    vm_compute in H1. injection H1 as <-. destruct u as [e|p]; [destruct H2|]. destruct p as [m p pr l t]. cbn in H2. destruct H2 as ([[_ <-]|[N X]] & <- & <- & <- & <-); [exact H3|discriminate X].
  - apply Ts_method. left. intros (a & b & H). destruct a as [|x [|y [|z [|? a]]]]; discriminate H.
  - apply Ts_method. right. exists (B "GET"). split; [reflexivity|]. intros a' b' H. destruct a' as [|x [|y [|z a']]]; try discriminate H. cbn. lia.
Qed.
