(* Properties C08 - C12, C53, C55, C56: request bodies, connections, request isolation. *)
From Verif Require Import M_Base M_Status M_Method M_Proto M_KeyValue M_Query M_Request M_Parser M_Client M_Body
  S_Head S_Parser S_Body S_Chunk L_Body L_Body2 L_Body3 L_Chunk L_BodyProps.

(* a decoder for the examples and witnesses that concern fixed-length bodies only *)
Definition no_decoder (s : unit) (data : bytes) (tr : bool) : unit * (bytes * bytes * option cerr) :=
  (s, ([], [], Some CErr)).
Definition ok_read (d : bytes) : bytes * option neterr := (d, None).
Definition ex_post (n : Z) : request := set_content_length n new_request.
Definition ex_chunked_post : request := set_encoding (Encoding [] [] true false) new_request.

(* ------------------------------------------------------------------------------------ *)
(* C08: for every state a body object may be in, every request announcing as many bytes as
   the text has, and every way the connection hands out "text, then rest": all accessors
   deliver the text, exactly, and the connection is left at rest (see AccessorsDeliver). *)
Theorem C08_fixed_length : forall CS cparse max (b : body CS) r c text rest,
  FixedRequest max r text -> stream c = text ++ rest ->
  AccessorsDeliver cparse max not_done text rest (body_init b r) c.
Proof. exact fixed_delivered. Qed.
Print Assumptions C08_fixed_length.

Example C08_case : let c := new_client (map ok_read [B "he"; B "llo"; []; B " worldGET"; B " /"]) [] in
  FixedRequest 100 (ex_post 11) (B "hello world") /\
  stream c = B "hello world" ++ B "GET /" /\
  fst (fst (body_bytes no_decoder 100 (body_init (new_body tt) (ex_post 11)) c)) = BROk (B "hello world") /\
  stream (snd (body_bytes no_decoder 100 (body_init (new_body tt) (ex_post 11)) c)) = B "GET /".
Proof. vm_compute. repeat split; discriminate. Qed.

(* ------------------------------------------------------------------------------------ *)
(* C09: whatever the connection delivers, whatever the chunk decoder does, whatever length is
   announced and however the accessors are mixed: all pieces handed out together stay within
   the limit, and so does every whole body.  [bd_full b] is what the buffer holds from before;
   the last part carries the condition over to the next request. *)
Theorem C09_limit : forall CS cparse max, (0 <= max)%Z -> forall ops (b : body CS) r c os b' c',
  (len (bd_full b) <= max)%Z ->
  body_ops cparse max ops (body_init b r) c = (os, b', c') ->
  (streamed os <= max)%Z /\
  Forall (fun o => match o with RBytes (BROk d) => (len d <= max)%Z | _ => True end) os /\
  (len (bd_full b') <= max)%Z.
Proof. exact limit_ok. Qed.
Print Assumptions C09_limit.

(* C09: a larger fixed length is an error in every accessor and hands out nothing *)
Theorem C09_fixed_too_large_partial : forall CS cparse max (b : body CS) r c op, (0 <= max)%Z ->
  enc_chunked (r_encoding r) = false ->
  (max < r_content_length r <= max_alloc)%Z -> stream c <> [] -> op <> ORead 0 ->
  exists o b' c', body_op cparse max op (body_init b r) c = (o, b', c') /\ out_data o = [] /\
    (o = RBytes (BRErr BTooLarge) \/ o = RPiece [] (Some BTooLarge) \/
     o = RCallback [] (Some (Some BTooLarge)) \/ o = RDiscard (Some (Some BTooLarge))).
Proof. exact plain_too_large. Qed.
Print Assumptions C09_fixed_too_large_partial.
(* Missing: lengths that cannot be allocated.  Bytes reserves room for the announced length
   before anything is checked, so that such a request ends the process: *)
Theorem C09_refuted_alloc : exists r c, r_content_length r = 9223372036854775807%Z /\ stream c = B "x" /\
  forall (b : body unit), (bd_cap b <= 100)%Z ->
  body_op no_decoder 100 OBytes (body_init b r) c = (RBytes BRPanic, body_init b r, c).
Proof.
  exists (ex_post 9223372036854775807), (new_client [ok_read (B "x")] []).
  split; [reflexivity|]. split; [reflexivity|]. exact alloc_panics.
Qed.
Print Assumptions C09_refuted_alloc.

(* C09: a chunked body that grows above the limit is an error *)
Theorem C09_chunked_too_large : forall CS cparse encoded fresh inside max (b : body CS) r c w text rest,
  DecoderOk CS cparse encoded fresh inside -> fresh (bd_cs b) ->
  enc_chunked (r_encoding r) = true -> encoded (enc_trailer (r_encoding r)) w text ->
  (0 <= max < len text)%Z -> stream c = w ++ rest ->
  exists b' c', body_bytes cparse max (body_init b r) c = (BRErr BTooLarge, b', c').
Proof. exact chunked_over_limit. Qed.
Print Assumptions C09_chunked_too_large.

Example C09_case : exists os b' c', body_ops ref_parse 5 [ORetrieve; ORetrieve; ORetrieve]
    (body_init (new_body (KSize 0 false)) ex_chunked_post)
    (new_client (map ok_read [B "3" ++ CRLF ++ B "ab"; B "c" ++ CRLF; B "3" ++ CRLF ++ B "def" ++ CRLF]) []) = (os, b', c') /\
  os = [RPiece (B "ab") None; RPiece (B "c") None; RPiece [] (Some BTooLarge)].
Proof. eexists _, _, _. vm_compute. split; reflexivity. Qed.

(* ------------------------------------------------------------------------------------ *)
(* C10: with a chunk decoder that meets its contract, the same for chunked bodies *)
Theorem C10_chunked : forall CS cparse encoded fresh inside max (b : body CS) r c w text rest,
  DecoderOk CS cparse encoded fresh inside -> fresh (bd_cs b) ->
  ChunkedRequest encoded max r w text -> stream c = w ++ rest ->
  AccessorsDeliver cparse max any_text text rest (body_init b r) c.
Proof. exact chunked_delivered. Qed.
Print Assumptions C10_chunked.

(* C10: afterwards the decoder is ready for the next chunked body, whatever the handler did *)
Theorem C10_next_body : forall CS cparse encoded fresh inside max (b : body CS) r c w text rest,
  DecoderOk CS cparse encoded fresh inside -> fresh (bd_cs b) ->
  ChunkedRequest encoded max r w text -> stream c = w ++ rest ->
  forall ops os b1 c1, body_ops cparse max ops (body_init b r) c = (os, b1, c1) ->
  exists b' c', body_discard cparse max b1 c1 = (Some None, b', c') /\ stream c' = rest /\ fresh (bd_cs b').
Proof. exact chunked_fresh_again. Qed.
Print Assumptions C10_next_body.

(* C10: the contract can be met: a decoder for the chunked coding *)
Theorem C10_contract_met :
  DecoderOk kstate ref_parse chunked_text kfresh (fun s _ w d => kaccepts s w d).
Proof. exact ref_decoder_ok. Qed.
Print Assumptions C10_contract_met.

Definition ex_chunked_text : bytes := B "a" ++ CRLF ++ B "0123456789" ++ CRLF ++ B "03" ++ CRLF ++ B "xyz" ++ CRLF ++ B "0" ++ CRLF ++ CRLF.
Example C10_case : ChunkedRequest chunked_text 100 ex_chunked_post ex_chunked_text (B "0123456789xyz") /\
  let c := new_client (map ok_read [firstn 7 ex_chunked_text; skipn 7 ex_chunked_text ++ B "GET"]) [] in
  fst (fst (body_bytes ref_parse 100 (body_init (new_body (KSize 0 false)) ex_chunked_post) c)) = BROk (B "0123456789xyz") /\
  stream (snd (body_bytes ref_parse 100 (body_init (new_body (KSize 0 false)) ex_chunked_post) c)) = B "GET".
Proof. split; [exact (proj1 ex_chunked_ok)|]. vm_compute. split; reflexivity. Qed.

(* ------------------------------------------------------------------------------------ *)
(* C11: false as it stands.  Request 1 has the body "secret", read with Bytes; request 2 has
   the body "x", which is discarded before Bytes is called: the answer is "secret". *)
Theorem C11_refuted : exists (b0 b1 b2 b3 : body unit) c0 c1 c2 c3,
  c0 = new_client [ok_read (B "secret"); ok_read (B "x")] [] /\ b0 = new_body tt /\
  body_op no_decoder 100 OBytes (body_init b0 (ex_post 6)) c0 = (RBytes (BROk (B "secret")), b1, c1) /\
  body_op no_decoder 100 ODiscard (body_init b1 (ex_post 1)) c1 = (RDiscard (Some None), b2, c2) /\
  body_op no_decoder 100 OBytes b2 c2 = (RBytes (BROk (B "secret")), b3, c3).
Proof. eexists _, _, _, _, _, _, _, _. split; [reflexivity|]. split; [reflexivity|].
  split; [vm_compute; reflexivity|]. split; [vm_compute; reflexivity|]. vm_compute. reflexivity. Qed.
Print Assumptions C11_refuted.

(* C11, the part that holds: as long as Bytes (or String) is not called for the first time
   after other accessors have reached the end, all answers are independent of everything the
   body object went through before; only the chunk decoder's own state matters. *)
Theorem C11_independent_partial : forall CS cparse max ops (b1 b2 : body CS) r c, bd_cs b1 = bd_cs b2 ->
  enc_chunked (r_encoding r) = true \/ (r_content_length r <= max_alloc)%Z ->
  NoStaleBytes cparse max false ops (body_init b1 r) c ->
  exists os b1' b2' c', body_ops cparse max ops (body_init b1 r) c = (os, b1', c') /\
    body_ops cparse max ops (body_init b2 r) c = (os, b2', c').
Proof. exact independent. Qed.
Print Assumptions C11_independent_partial.
(* such are all handlers that start with Bytes, and all that never call it *)
Theorem C11_bytes_first_partial : forall CS cparse max ops (b : body CS) r c,
  NoStaleBytes cparse max false (OBytes :: ops) (body_init b r) c.
Proof. exact bytes_first_fine. Qed.
Print Assumptions C11_bytes_first_partial.
Theorem C11_no_bytes_partial : forall CS cparse max ops t (b : body CS) c, Forall (fun op => op <> OBytes) ops ->
  NoStaleBytes cparse max t ops b c.
Proof. exact no_bytes_fine. Qed.
Print Assumptions C11_no_bytes_partial.

(* ------------------------------------------------------------------------------------ *)
(* C12: a request object that has served any request and was cleared shows, after the next
   head, exactly what a brand-new object would show. *)
Theorem C12_isolated_partial : forall cfg umax kmax vmax p r h reads tail,
  Ready umax kmax vmax p -> p_req p = request_clear r -> QueryFresh (r_query r) ->
  wf_head h -> fits (cfg_limits cfg umax kmax vmax) h -> concat reads = render_head h ++ tail ->
  exists p' e rs q' e2 rs2,
    feed cfg p reads = (RDone p' e, rs) /\
    feed cfg (new_parser umax kmax vmax new_request) reads = (RDone q' e2, rs2) /\
    SameView (p_req p') (p_req q') /\ QueryFresh (r_query (p_req p')).
Proof. exact isolated. Qed.
Print Assumptions C12_isolated_partial.
(* the query condition is kept by everything a handler can do with the query *)
Theorem C12_query_fresh_partial : forall q raw, QueryFresh q ->
  QueryFresh (query_set q raw) /\ QueryFresh (fst (query_do_parse q)).
Proof. exact fresh_kept. Qed.
Print Assumptions C12_query_fresh_partial.
(* Missing: the TLS marker set once per connection (http/serve/http1.go) does not survive *)
Theorem C12_refuted_tls : exists r, env_encryption (r_env r) = enc_tls /\
  env_encryption (r_env (request_clear r)) = enc_plain /\ enc_plain <> enc_tls.
Proof. exists (set_env (Env None [] enc_tls []) new_request). repeat split. discriminate. Qed.
Print Assumptions C12_refuted_tls.
Example C12_case : QueryFresh (r_query new_request) /\
  r_params (set_params (kv_add kv_new (B "id") (B "7")) new_request) <> kv_new /\
  kv_pairs (r_params (request_clear (set_params (kv_add kv_new (B "id") (B "7")) new_request))) = [].
Proof. repeat split; discriminate. Qed.

(* ------------------------------------------------------------------------------------ *)
(* C53: reading, using a part of what was read and pushing back the rest, any number of
   times: the used parts are the stream, in order; nothing is lost or seen twice.  After a
   failed read everything that came before it has been handed out. *)
Theorem C53_accounting : forall ks c u ok c', consume ks c = (u, ok, c') ->
  stream c = u ++ (if ok then stream c' else []).
Proof. exact consume_ok. Qed.
Print Assumptions C53_accounting.
(* C55: bytes that a read returns together with an error are dropped *)
Theorem C55_refuted_with_error : exists c (b : body unit), c = new_client [(B "last", Some NEof)] [] /\
  fst (fst (body_op no_decoder 100 OBytes (body_init b (ex_post 4)) c)) = RBytes (BROk []).
Proof. exists (new_client [(B "last", Some NEof)] []), (new_body tt). vm_compute. split; reflexivity. Qed.
Print Assumptions C55_refuted_with_error.
Example C53_case : consume [2; 1; 0; 9; 3]%nat (new_client (map ok_read [B "abc"; B "de"; B "fghij"]) []) =
  (B "abcdefgh", true, Client [] (B "ij") [] []).
Proof. reflexivity. Qed.

(* ------------------------------------------------------------------------------------ *)
(* C55: false as it stands: when the peer closes the connection in the middle of a body, the
   truncated body is delivered as if it was complete. *)
Theorem C55_refuted : exists c (b : body unit), c = new_client [ok_read (B "abc"); ([], Some NEof)] [] /\
  fst (fst (body_op no_decoder 100 OBytes (body_init b (ex_post 5)) c)) = RBytes (BROk (B "abc")).
Proof. exists (new_client [ok_read (B "abc"); ([], Some NEof)] []), (new_body tt). vm_compute. split; reflexivity. Qed.
Print Assumptions C55_refuted.
(* C55, the part that holds: any other failure of the connection is reported *)
Theorem C55_broken_partial : forall CS cparse max (b : body CS) r net ev later out w,
  enc_chunked (r_encoding r) = false -> (r_content_length r <= max)%Z -> (r_content_length r <= max_alloc)%Z ->
  Forall (fun x => snd x = None) net -> (len (net_data net) < r_content_length r)%Z ->
  exists b' c', body_bytes cparse max (body_init b r) (Client (net ++ (ev, Some NOther) :: later) [] out w) = (BRErr BNet, b', c').
Proof. exact broken_reported. Qed.
Print Assumptions C55_broken_partial.

(* ------------------------------------------------------------------------------------ *)
(* C56: false as it stands: for a request without a body the callback is called with nothing *)
Theorem C56_refuted : exists ps r b' c', body_op no_decoder 100 (OCallback (fun _ => true))
  (body_init (new_body tt) (ex_post 0)) (new_client [] []) = (RCallback ps r, b', c') /\ ps = [[]].
Proof. eexists _, _, _, _. vm_compute. split; reflexivity. Qed.
Print Assumptions C56_refuted.
