(* Property C107: serving a connection comes to an end. *)
From Verif Require Import M_Base M_Status M_Method M_Proto M_KeyValue M_Query M_Request M_Parser M_Client M_Body
  M_Response M_Serializer M_Suit M_Path M_Radix M_Router S_KeyValue S_Chunk S_Head S_Parser S_Body S_Response S_Split S_Conn S_Routes S_Router S_Serve S_Ends
  L_Chunk L_Router5 L_Serve L_ServeEx L_ConnProps L_Ends P_Parser.

(* C107: whatever a connection delivers, in whatever state it is and whatever its handlers do
   (reading the body in any way, taking over the connection, panicking), the loop that serves it goes
   round at most once for each read and each byte there is, and then it is over: no input makes it
   go round for ever, and no accessor of a body either.  (Assumed: the chunk decoder makes progress,
   attached readers end or fail at last.  How long a read may take is C104.) *)
Theorem C107_ends : forall CS (cparse : CS -> bytes -> bool -> CS * (bytes * bytes * option cerr)), DecoderMoves cparse ->
  forall max W (on_request : W -> request -> hprog W) (on_error : W -> request -> http_error -> hprog W),
  (forall w r, Answering ends_reading (on_request w r)) -> (forall w r e, Answering ends_reading (on_error w r e)) ->
  forall cfg fuel (st : conn CS W), (amount (k_client st) < fuel)%nat ->
  fst (serve cparse max cfg on_request on_error fuel st) <> EndStuck /\
  forall more, serve cparse max cfg on_request on_error (fuel + more) st = serve cparse max cfg on_request on_error fuel st.
Proof. exact serve_ends. Qed.
Print Assumptions C107_ends.
(* the same for a single accessor of a body, on any connection *)
Theorem C107_accessors : forall CS (cparse : CS -> bytes -> bool -> CS * (bytes * bytes * option cerr)), DecoderMoves cparse ->
  forall max op (b : body CS) c, exists o b' c', body_op cparse max op b c = (o, b', c') /\ stops o <> Some false /\ (amount c' <= amount c)%nat.
Proof. exact op_ends. Qed.
Print Assumptions C107_accessors.
(* and for a handler *)
Theorem C107_handlers : forall CS (cparse : CS -> bytes -> bool -> CS * (bytes * bytes * option cerr)), DecoderMoves cparse ->
  forall max W (ok : option fields -> Prop) (h : hprog W), Answering ok h -> forall r (b : body CS) c,
  match run_handler cparse max h r b c with
  | HDone resp _ _ _ c' => ok resp /\ (amount c' <= amount c)%nat
  | HPanic _ _ c' => (amount c' <= amount c)%nat
  | HStuck => False
  end.
Proof. exact handler_ends. Qed.
Print Assumptions C107_handlers.
Theorem C107_contract_met : DecoderMoves ref_parse.
Proof. exact ref_decoder_moves. Qed.
Print Assumptions C107_contract_met.

(* three reads of 61 bytes: 65 rounds suffice for the whole connection, with a chunked body the
   handler reads piece by piece *)
Definition nibble : handler (list nat) := fun w r => HBody ORetrieve (fun _ => HBody ORetrieve (fun o => HRet (Some (set_rbody (out_data o) new_response)) w)).
Definition nibbler : list (list nat * rop (list nat)) := [([], Route POST (B "/a") nibble [])].
Example C107_case : exists x, Running nibbler x /\
  let st := shop_conn [crlf_lines [B "POST /a HTTP/1.1"; B "Transfer-Encoding: chunked"; []] ++ B "3"; CRLF ++ B "abc" ++ CRLF; B "0" ++ CRLF ++ CRLF] in
  amount (k_client st) = 64%nat /\
  fst (serve ref_parse 100 ex_cfg (on_request x) (on_error x) 65 st) = EndRead /\
  cl_out (k_client (snd (serve ref_parse 100 ex_cfg (on_request x) (on_error x) 65 st))) = [ok_text (B "HTTP/1.1") (B "abc")].
Proof. eexists. split; [apply start_running; vm_compute; reflexivity|]. repeat split; vm_compute; reflexivity. Qed.
(* the assumption about the decoder is needed: one that gives everything back and waits for more *)
Example C107_decoder_needed : let lazy := fun (s : unit) (data : bytes) (tr : bool) => (s, ([], data, @None cerr)) in
  ~ DecoderMoves lazy /\ exists b c, forall n, exists b' c', discard_loop lazy 10 n b c = (None, b', c').
Proof.
  split; [intros H; specialize (H tt (B "x") false tt [] (B "x") None eq_refl); destruct H as [H|[H _]]; [cbn in H; lia|discriminate H]|].
  exists (Body true 0 [] 0 false 0 0 false tt [] None), (Client [] (B "x") [] []).
  induction n as [|n (b' & c' & IH)]; [do 2 eexists; reflexivity|]. exists b', c'. exact IH.
Qed.
