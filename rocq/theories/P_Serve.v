(* Properties C72, C73: a server with the built-in router, from the bytes that arrive to the
   bytes that are sent. *)
From Verif Require Import M_Base M_Status M_Method M_Proto M_KeyValue M_Query M_Request M_Parser M_Client M_Body
  M_Response M_Serializer M_Suit M_Path M_Radix M_Router S_Static S_KeyValue S_Chunk S_Head S_Parser S_Body S_Response S_Conn S_Split S_Routes S_Router S_Serve
  L_Router5 L_Serve L_Serve2 L_ServeEx L_Chunk L_ConnProps P_Parser.

(* C72: a client that sends well-formed requests, however they are cut into reads, gets from a
   server with the built-in router exactly the responses of the handlers the registrations say
   (Dispatch): each request goes to the handler of its route and method behind its middlewares,
   with the parameters of the path, a HEAD request to that of GET if there is none; to the 405
   handler with the Allow list if the route has other methods, to the catcher with the longest
   prefix or the 404 handler if there is no route; one at a time, in order, each exactly once;
   and each response is sent once and completely (Dialogue).
   Missing: what C07 leaves out; mutators other than plain aliases (C72_mutators_partial); with
   parameters, aliases to the empty path, which panic (C30_tree_exact); "/" of a router with
   parameters, parameters of dead ends, TRACE (Pl_root, Dp_caught, Dp_none, Dp_trace are what
   C30, C39 found). *)
Theorem C72_end_to_end_partial : forall CS cparse encoded fresh inside,
  DecoderOk CS cparse encoded fresh inside -> forall max, (max < two64)%Z ->
  forall cfg umax kmax vmax fbs defs, distinct_names defs ->
  forall W (os : list (list nat * rop W)) x, Running os x -> PlainAliases os -> OrdinaryApp fbs os ->
  forall reqs past (st : conn CS (world W)) tail, Routable os reqs ->
  Between umax kmax vmax fbs defs fresh past st ->
  Forall (GoodRequest encoded (cfg_limits cfg umax kmax vmax) max) reqs ->
  Unfinished (cfg_limits cfg umax kmax vmax) tail ->
  stream (k_client st) = concat (map wire reqs) ++ tail ->
  exists n outs closed st1,
    Dialogue defs os reqs (k_world st) past outs (k_world st1) closed /\
    cl_out (k_client st1) = cl_out (k_client st) ++ outs /\
    forall fuel, (n <= fuel)%nat ->
      serve cparse max cfg (on_request x) (on_error x) fuel st =
      close_with cparse max (on_error x) (match closed with None => EndRead | Some _ => EndWrite end) st1.
Proof. exact end_to_end. Qed.
Print Assumptions C72_end_to_end_partial.

(* the registrations name one handler for a request (if the prefix of a catcher is registered
   in two groups, one of the two, C35_two_groups) *)
Theorem C72_one_handler : forall W (os : list (list nat * rop W)) x r h h' r1 r1', Running os x -> PlainAliases os ->
  (HasParams os -> DistinctTemplates os /\ forall r0, Arrives os r r0 -> r_path r0 <> []) ->
  Dispatch os r h r1 -> Dispatch os r h' r1' ->
  h = h' \/ exists p, In (p, h) (caught os) /\ In (p, h') (caught os).
Proof. exact one_handler. Qed.
Print Assumptions C72_one_handler.

(* the premises can be met, without and with parameters *)
Example C72_case : let net := [firstn 20 ex_stream; firstn 50 (skipn 20 ex_stream); []; skipn 70 ex_stream] in
  exists x, Running shop x /\ PlainAliases shop /\ OrdinaryApp 64 shop /\ Routable shop ex_reqs /\
  Forall (GoodRequest chunked_text ex_lim 100) ex_reqs /\ Unfinished ex_lim (B "GE") /\
  stream (k_client (shop_conn net)) = concat (map wire ex_reqs) ++ B "GE" /\
  fst (shop_serve x net) = EndRead /\
  cl_out (k_client (snd (shop_serve x net))) =
    [ok_text (B "HTTP/1.1") (B "secret");
     crlf_lines [B "HTTP/1.1 404 Not Found"; B "Content-Type: text/html"; B "Content-Length: 0"; []];
     crlf_lines [B "HTTP/1.1 405 Method Not Allowed"; B "Allow: GET"; B "Content-Type: text/html"; B "Content-Length: 0"; []]].
Proof. exact shop_case. Qed.
Example C72_case_params :
  exists x, Running greeter x /\ PlainAliases greeter /\ OrdinaryApp 64 greeter /\ Routable greeter [hello_req] /\
  Forall (GoodRequest chunked_text ex_lim 100) [hello_req] /\
  cl_out (k_client (snd (shop_serve x [wire hello_req]))) = [ok_text (B "HTTP/1.1") (B "hello bob")].
Proof. exact greeter_case. Qed.
(* a path without a leading slash is nowhere in such an application *)
Example C72_case_unrooted :
  exists x, Running greeter x /\ cl_out (k_client (snd (shop_serve x [B "GET hello/bob HTTP/1.1" ++ CRLF ++ CRLF ++ wire hello_req]))) =
    [crlf_lines [B "HTTP/1.1 404 Not Found"; B "Content-Type: text/html"; B "Content-Length: 0"; []]; ok_text (B "HTTP/1.1") (B "hello bob")].
Proof. eexists. split; [apply start_running; vm_compute; reflexivity|]. vm_compute. reflexivity. Qed.

(* ------------------------------------------------------------------------------------ *)
(* C73: after the requests, bytes that are no request get exactly one response, and then the
   connection ends: nothing more is read and no handler called.  The response has the status
   code of the defect and an empty body.  For an application without own error handlers and
   without middlewares on the root router.
   Missing: which version the response names; the version is missing altogether if that of the
   request is unknown (C61_refuted); a request line ending with a space (C70_refuted).  Defects of
   header lines and the version: C82_connection_partial. *)
Theorem C73_refused_partial : forall CS cparse encoded fresh inside,
  DecoderOk CS cparse encoded fresh inside -> forall max, (max < two64)%Z ->
  forall cfg umax kmax vmax fbs defs, distinct_names defs ->
  (0 <= c_max_headers cfg)%Z -> (0 <= kmax)%Z -> (0 <= vmax)%Z -> (7 <= umax)%Z ->
  forall W (os : list (list nat * rop W)) x, Running os x -> PlainAliases os -> OrdinaryApp fbs os -> NoErrorHandlers os -> uses os [] = [] ->
  forall reqs past (st : conn CS (world W)) tail P, Routable os reqs ->
  Between umax kmax vmax fbs defs fresh past st ->
  Forall (GoodRequest encoded (cfg_limits cfg umax kmax vmax) max) reqs -> Malformed cfg umax kmax vmax tail P ->
  stream (k_client st) = concat (map wire reqs) ++ tail ->
  exists n outs closed st1, Dialogue defs os reqs (k_world st) past outs (k_world st1) closed /\
    cl_out (k_client st1) = cl_out (k_client st) ++ outs /\
    match closed with
    | Some _ => forall fuel, (n <= fuel)%nat -> serve cparse max cfg (on_request x) (on_error x) fuel st = close_with cparse max (on_error x) EndWrite st1
    | None => exists c out st2, P c /\
        (forall fuel, (n <= fuel)%nat -> serve cparse max cfg (on_request x) (on_error x) fuel st = (EndParse, st2)) /\
        k_world st2 = k_world st1 /\ cl_out (k_client st2) = cl_out (k_client st1) ++ [out] /\
        (c <> 505%N -> r_proto (p_req (k_parser st1)) <> PUnknown ->
           exists v past', v <> PUnknown /\
           out = response_text (version_of v) (itoa_N c) (sent_reason (set_code c new_response)) (sent_fields defs past' (set_code c new_response)) [])
    end.
Proof. exact refused_after. Qed.
Print Assumptions C73_refused_partial.

Example C73_case : exists x, Running shop x /\ NoErrorHandlers shop /\ uses shop [] = [] /\
  Malformed ex_cfg 100 100 100 (B "FOO / HTTP/1.1" ++ CRLF ++ B "junk") (fun c => c = 501%N) /\
  let net := [concat (map wire ex_reqs) ++ B "FOO"; B " / HTTP/1.1" ++ CRLF ++ B "junk"] in
  fst (shop_serve x net) = EndParse /\
  skipn 3 (cl_out (k_client (snd (shop_serve x net)))) =
    [crlf_lines [B "HTTP/1.1 501 Not Implemented"; B "Content-Type: text/html"; B "Content-Length: 0"; []]].
Proof. exact shop_refuses. Qed.
