(* Property C82: connections that receive any bytes in any reads. *)
From Verif Require Import M_Base M_Status M_Method M_Proto M_KeyValue M_Query M_Request M_Parser M_Client M_Body
  M_Response M_Serializer M_Suit M_Path M_Radix M_Router S_KeyValue S_Chunk S_Head S_Parser S_Body S_Response S_Split S_Verdict S_Arrive S_Conn S_Unversioned S_Routes S_Router S_Serve
  L_Router5 L_RouterEx L_Serve L_ServeEx L_ConnProps L_ArriveConn P_Parser P_Verdict.

(* C82: after any requests, whatever bytes follow in whatever reads: the connection waits for more,
   is brought down, or gives the error of the first defect and the version named last to the error
   handler the application chose for its code; what that answers is sent, and the connection ends.
   Exactly one of the verdicts applies (C82_exact_total, C82_exact_unique).
   Missing: what is taken as a request (C72, C07); error handlers that use the body or send
   attachments (Detached); applications with handlers that are not ordinary.  If the version of the
   request is unknown the response has none (SentIn, C61_refuted) *)
Theorem C82_connection_heard_partial : forall CS cparse encoded fresh inside,
  DecoderOk CS cparse encoded fresh inside -> forall max, (max < two64)%Z ->
  forall cfg umax kmax vmax fbs defs, (0 <= umax)%Z -> distinct_names defs ->
  forall W (os : list (list nat * rop W)) x, Running os x -> PlainAliases os -> OrdinaryApp fbs os ->
  forall reqs past (st : conn CS (world W)) tail, Routable os reqs ->
  Between umax kmax vmax fbs defs fresh past st ->
  Forall (GoodRequest encoded (cfg_limits cfg umax kmax vmax) max) reqs ->
  stream (k_client st) = concat (map wire reqs) ++ tail ->
  exists n outs closed st1, Dialogue defs os reqs (k_world st) past outs (k_world st1) closed /\
    cl_out (k_client st1) = cl_out (k_client st) ++ outs /\
    match closed with
    | Some _ => forall fuel, (n <= fuel)%nat -> serve cparse max cfg (on_request x) (on_error x) fuel st = close_with cparse max (on_error x) EndWrite st1
    | None => concat (reads_of (k_client st1)) = tail /\
        forall v, HeadHeard (cfg_limits cfg umax kmax vmax) (reads_of (k_client st1)) v ->
        match v with
        | VTaken _ _ => True
        | VMore => exists m st2, cl_out (k_client st2) = cl_out (k_client st1) /\ k_world st2 = k_world st1 /\
            forall fuel, (m <= fuel)%nat -> serve cparse max cfg (on_request x) (on_error x) fuel st = close_with cparse max (on_error x) EndRead st2
        | VPanics => exists m st2, cl_out (k_client st2) = cl_out (k_client st1) /\ k_world st2 = k_world st1 /\
            forall fuel, (m <= fuel)%nat -> serve cparse max cfg (on_request x) (on_error x) fuel st = (EndPanic, st2)
        | VRefused named e => exists q r1, r_proto r1 = or_default named (r_proto (p_req (k_parser st1))) /\ GivenTo os q e r1 /\
            (Detached (error_choice os (he_code e) (k_world st1) r1) -> exists resp w' r' out m st2 past',
               detached_result (error_choice os (he_code e) (k_world st1) r1) r1 = Some (resp, w', r') /\
               (forall fuel, (m <= fuel)%nat -> serve cparse max cfg (on_request x) (on_error x) fuel st = (EndParse, st2)) /\
               k_world st2 = w' /\ cl_out (k_client st2) = cl_out (k_client st1) ++ [out] /\
               SentIn defs past' (r_proto r') r' (not_nil resp) [out])
        end
    end.
Proof. exact heard_after. Qed.
Print Assumptions C82_connection_heard_partial.

(* three requests, then a head with a line feed in a name.  In one read it is a request with a bad
   length; if a read begins with the line feed, it is a request without the length, and what
   follows is a request with an unknown method *)
Example C82_heard_case : exists x, Running own_shop x /\ (forall w r, Detached (error_choice own_shop 400%N w r)) /\
  let t1 := B "GET /b HTTP/1.1" ++ CRLF ++ B "A" in let t2 := LF :: B "B: c" ++ CRLF ++ B "Content-Length: x" in
  let one := [concat (map wire ex_reqs); t1 ++ t2] in let two := [concat (map wire ex_reqs); t1; t2] in
  fst (shop_serve x one) = EndParse /\ fst (shop_serve x two) = EndParse /\
  skipn 3 (cl_out (k_client (snd (shop_serve x one)))) =
    [crlf_lines [B "HTTP/1.1 418 I'm a teapot"; B "Content-Type: text/html"; B "Content-Length: 6"; []] ++ B "no: /b"] /\
  skipn 4 (cl_out (k_client (snd (shop_serve x two)))) =
    [crlf_lines [B "HTTP/1.1 501 Not Implemented"; B "Content-Type: text/html"; B "Content-Length: 0"; []]].
Proof.
  eexists. split; [apply start_running; vm_compute; reflexivity|]. split; [intros w r; apply Dt_ret; intros f E; injection E as <-; reflexivity|].
  cbv zeta. repeat split; vm_compute; reflexivity.
Qed.
