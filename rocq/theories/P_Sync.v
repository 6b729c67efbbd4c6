(* Property C106: where the next request is looked for. *)
From Verif Require Import M_Base M_Status M_Method M_Proto M_KeyValue M_Query M_Request M_Parser M_Client M_Body
  M_Response M_Serializer M_Suit M_Path M_Radix M_Router S_KeyValue S_Chunk S_Head S_Parser S_Body S_Response S_Split S_Conn S_Routes S_Router S_Serve S_Sync
  L_Chunk L_Router5 L_Serve L_ServeEx L_ConnProps L_Sync P_Parser.

Definition careful : handler (list nat) := fun w r => HBody OBytes (fun o =>
  match o with
  | RBytes (BROk d) => HRet (Some (set_rbody (B "served " ++ r_path r) new_response)) w
  | _ => HRet (Some (set_rbody (B "too long") (set_code 413%N new_response))) w
  end).
Definition strict : list (list nat * rop (list nat)) := [([], Route POST (B "/a") careful []); ([], Route POST (B "/b") careful []); ([], Route GET (B "/c") careful [])].
Definition blind : handler (list nat) := fun w r => HRet (Some (set_rbody (B "served " ++ r_path r) new_response)) w.
Definition long_head : head := Head POST (B "/a") (B "/a") None HTTP11 true [HLine (B "Transfer-Encoding") 1 (B "chunked") true] true.
Definition long_req : req :=
  Req long_head (B "1f" ++ CRLF ++ repeat "x"%byte 31 ++ CRLF ++ B "0" ++ CRLF ++ CRLF) (repeat "x"%byte 31).
Definition next_head : head := Head POST (B "/b") (B "/b") None HTTP11 true [HLine (B "Content-Length") 1 (B "24") true] true.
Definition next_req : req :=
  let text := B "0" ++ CRLF ++ CRLF ++ crlf_lines [B "GET /c HTTP/1.1"; []] in Req next_head text text.
Definition strict_serve (x : runtime (list nat)) (net : list bytes) : ending * conn kstate (world (list nat)) :=
  serve ref_parse 30 ex_cfg (on_request x) (on_error x) 50 (shop_conn net).
(* The body of a request is served as a request.  The client sends two requests without defect;
   the body of the first is longer than allowed, its handler is told so and answers with 413.  The
   connection goes on nevertheless: the bytes behind the refused body that were read together with
   it (the head of the second request) are lost, and the next ones (its body) are taken for the
   rest of the refused body and for a third request, GET /c, which the client never sent. *)
Theorem C106_refuted : exists x, Running strict x /\
  GoodRequest chunked_text ex_lim 31 long_req /\ GoodRequest chunked_text ex_lim 30 next_req /\
  let reads := [wire long_req ++ render_head next_head; q_text next_req] in concat reads = wire long_req ++ wire next_req /\
  cl_out (k_client (snd (strict_serve x reads))) =
    [crlf_lines [B "HTTP/1.1 413 Request Entity Too Large"; B "Content-Type: text/html"; B "Content-Length: 8"; []] ++ B "too long";
     ok_text (B "HTTP/1.1") (B "served /c")].
Proof.
  eexists. split; [apply start_running; vm_compute; reflexivity|]. split; [|split].
  - constructor.
    + unfold long_req, long_head. cbn [q_head]. head_ok.
    + unfold long_req, long_head. cbn [q_head]. head_fits.
    + reflexivity.
    + vm_compute. discriminate.
    + change (is_chunked (q_head long_req)) with true. cbv iota. apply (Ch_more (B "1f") (repeat "x"%byte 31) (B "0" ++ CRLF ++ CRLF) []); try discriminate; [reflexivity|].
      apply (Ch_last (B "0")); [discriminate|reflexivity].
  - constructor.
    + unfold next_req, next_head. cbn [q_head]. head_ok.
    + unfold next_req, next_head. cbn [q_head]. head_fits.
    + reflexivity.
    + vm_compute. discriminate.
    + vm_compute. repeat split; discriminate.
  - split; [vm_compute; reflexivity|]. vm_compute. reflexivity.
Qed.
Print Assumptions C106_refuted.

(* C106: whatever bytes come, if the connection goes on to the next request then the bytes taken
   since the head were exactly one body, of the announced length or in the coding and not longer than
   allowed, and the next request begins right behind it - unless the other side hung up (C55), or the
   body is chunked and an accessor told the handler that it was too long or malformed.  Nothing is
   assumed about the bytes, the reads and their failures, the state of the connection, or the responses.
   Of the decoder it is assumed that it does not lie about what it has read (DecoderSound).
   Missing: handlers that use the connection themselves (C59) *)
Theorem C106_partial : forall CS cparse encoded fresh begun, DecoderSound CS cparse encoded fresh begun -> forall max, (0 <= max < two64)%Z ->
  forall W on_request on_error (st : conn CS W) extra st', let r := p_req (k_parser st) in
  fresh (bd_cs (k_body st)) -> LeavesAlone (on_request (k_world st) r) ->
  on_head cparse max on_request on_error st extra = inr st' ->
  let c := client_unread (k_client st) extra in
  exists before, cl_net (k_client st) = before ++ cl_net (k_client st') /\
    (hung_up before \/
     (enc_chunked (r_encoding r) = true /\ exists o, In o (told cparse max (on_request (k_world st) r) r (body_init (k_body st) r) c) /\ turned_down o = true) \/
     exists text, OneBody encoded max r (coming c) text (coming (k_client st')) /\ fresh (bd_cs (k_body st'))).
Proof. exact next_request. Qed.
Print Assumptions C106_partial.
(* the reference decoder does not lie *)
Theorem C106_contract_met : exists begun, DecoderSound kstate ref_parse chunked_text kfresh begun.
Proof. exists kbegun. exact ref_decoder_sound. Qed.
Print Assumptions C106_contract_met.

(* a handler that does not look at the body: the same two requests get one response, and nothing is lost
   when the body is as long as allowed *)
Definition strict_blind : list (list nat * rop (list nat)) := [([], Route POST (B "/a") blind []); ([], Route POST (B "/b") blind []); ([], Route GET (B "/c") blind [])].
Example C106_case : exists x, Running strict_blind x /\
  let reads := [wire long_req ++ render_head next_head; q_text next_req] in
  fst (strict_serve x reads) = EndClear /\ cl_out (k_client (snd (strict_serve x reads))) = [ok_text (B "HTTP/1.1") (B "served /a")] /\
  cl_out (k_client (snd (serve ref_parse 31 ex_cfg (on_request x) (on_error x) 50 (shop_conn reads)))) =
    [ok_text (B "HTTP/1.1") (B "served /a"); ok_text (B "HTTP/1.1") (B "served /b")].
Proof. eexists. split; [apply start_running; vm_compute; reflexivity|]. repeat split; vm_compute; reflexivity. Qed.
