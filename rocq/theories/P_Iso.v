(* Properties C12 and C60 for arbitrary bytes: what request objects with different pasts make of
   the same bytes. *)
From Verif Require Import M_Base M_Status M_Method M_Proto M_KeyValue M_Query M_Request M_Parser M_Client M_Body
  M_Response M_Serializer M_Suit M_Router S_KeyValue S_Head S_Parser S_Body S_Response S_Conn S_Unversioned S_Iso L_Iso L_ParserProps P_Parser.

(* ------------------------------------------------------------------------------------ *)
(* C12: for all streams, well-formed or not, in all segmentations: a request object that has
   served any request and was cleared and a brand-new one go through the same, a complete head
   shows the same in both, and so does a refused one but for the parts of its first line that
   were not reached.  Missing: the TLS marker (C12_refuted_tls). *)
Theorem C12_any_stream_partial : forall cfg umax kmax vmax p r reads, Ready umax kmax vmax p ->
  p_req p = request_clear r -> QueryFresh (r_query r) ->
  SameFor r new_request (feed cfg p reads) (feed cfg (new_parser umax kmax vmax new_request) reads).
Proof. exact same_as_new. Qed.
Print Assumptions C12_any_stream_partial.
Example C12_any_case : let r := set_method HEAD (set_path (B "/x") (set_headers (kv_add kv_new (B "a") (B "b")) (set_content_length 5 new_request))) in
  exists p1 p2 p3 p4,
  feed ex_cfg (new_parser 100 60 60 (request_clear r)) [B "GET /y?q H"; B "TTP/1.1" ++ CRLF ++ B "k: v" ++ CRLF ++ CR :: B "x"] = (RErr p1 ErrBadRequest, []) /\
  feed ex_cfg (new_parser 100 60 60 new_request) [B "GET /y?q H"; B "TTP/1.1" ++ CRLF ++ B "k: v" ++ CRLF ++ CR :: B "x"] = (RErr p2 ErrBadRequest, []) /\
  SameView (p_req p1) (p_req p2) /\ kv_pairs (r_headers (p_req p1)) = [(B "k", B "v")] /\
  feed ex_cfg (new_parser 100 60 60 (request_clear r)) [B "GET  HTTP/1.1" ++ CRLF] = (RErr p3 ErrBadRequest, []) /\
  feed ex_cfg (new_parser 100 60 60 new_request) [B "GET  HTTP/1.1" ++ CRLF] = (RErr p4 ErrBadRequest, []) /\
  (r_method (p_req p3), r_path (p_req p3)) = (GET, B "/x") /\ (r_method (p_req p4), r_path (p_req p4)) = (GET, []).
Proof. eexists _, _, _, _. vm_compute. repeat split. Qed.

(* ------------------------------------------------------------------------------------ *)
(* C60: for all bytes and any two connections, whatever was served on them before: the same bytes
   have the same outcome.  If they are refused, then with the same error, and the error handler
   is told the same but for method, path and version, which may be those of the request before
   (C60_refuted). *)
Theorem C60_told_partial : forall CS W cfg umax kmax vmax fbs defs (fresh : CS -> Prop) past1 past2 (st1 st2 : conn CS W) reads,
  Between umax kmax vmax fbs defs fresh past1 st1 -> Between umax kmax vmax fbs defs fresh past2 st2 ->
  SameFor (p_req (k_parser st1)) (p_req (k_parser st2)) (feed cfg (k_parser st1) reads) (feed cfg (k_parser st2) reads).
Proof. exact told. Qed.
Print Assumptions C60_told_partial.
(* C60: an error handler that does not look at the first line then gives the same answer, and it
   is sent on both connections (up to the version, C60_refuted, and the default headers, C26) *)
Theorem C60_answered_partial : forall CS (cparse : CS -> bytes -> bool -> CS * (bytes * bytes * option cerr)) (fresh : CS -> Prop) max
    cfg umax kmax vmax fbs defs, distinct_names defs ->
  forall W (on_request : W -> request -> hprog W) (on_error : W -> request -> http_error -> hprog W) past1 past2 (st1 st2 : conn CS W) p1 e rs,
  Between umax kmax vmax fbs defs fresh past1 st1 -> Between umax kmax vmax fbs defs fresh past2 st2 ->
  k_world st1 = k_world st2 -> reads_of (k_client st1) = reads_of (k_client st2) ->
  (forall e, Indifferent (fun r => on_error (k_world st1) r e)) ->
  feed cfg (k_parser st1) (reads_of (k_client st1)) = (RErr p1 e, rs) ->
  exists n resp w r1 r2 out1 out2 st1' st2',
    (forall fuel, (n <= fuel)%nat -> serve cparse max cfg on_request on_error fuel st1 = (EndParse, st1') /\
                                     serve cparse max cfg on_request on_error fuel st2 = (EndParse, st2')) /\
    k_world st1' = w /\ k_world st2' = w /\
    cl_out (k_client st1') = cl_out (k_client st1) ++ [out1] /\ cl_out (k_client st2') = cl_out (k_client st2) ++ [out2] /\
    SentIn defs past1 (r_proto r1) r1 (not_nil resp) [out1] /\
    SentIn defs past2 (r_proto r2) r2 (not_nil resp) [out2].
Proof. exact answered. Qed.
Print Assumptions C60_answered_partial.
Example C60_case : forall W (w : W) e, Indifferent (fun r => HUpdate (set_error (EHttp e)) (HRet (Some (resp_error (Some (EHttp e)) [] new_response)) w)) /\
  ~ Indifferent (fun r => HRet (Some (set_rbody (r_path r) new_response)) w).
Proof.
  intros W w e. split.
  - intros a b _. assert (D : Detached (HUpdate (set_error (EHttp e)) (HRet (Some (resp_error (Some (EHttp e)) [] new_response)) w))).
    { apply Dt_update, Dt_ret. intros f H. injection H as <-. reflexivity. }
    split; [exact D|]. split; [exact D|]. eexists _, _, _, _. split; reflexivity.
  - intros H. destruct (H (set_path (B "/a") new_request) new_request) as (_ & _ & resp & w' & a' & b' & E1 & E2); [constructor; reflexivity|].
    unfold detached_result in E1, E2. cbn [aloof_run] in E1, E2. injection E1 as E1 _ _. injection E2 as E2 _ _. rewrite <- E2 in E1. vm_compute in E1. discriminate E1.
Qed.
