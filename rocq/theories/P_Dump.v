(* Property C78: what Dump writes of any request. *)
From Verif Require Import M_Base M_Status M_Method M_Proto M_KeyValue M_Query M_Request M_Parser M_Client M_Body M_Tools
  M_Response M_Serializer M_Suit S_Chunk S_Conn S_Query S_Tools S_Exact2 S_Dump L_Chunk L_Dump L_ConnProps P_Parser P_Tools.

(* C78: whatever the request, its query as sent, how the query was used before, and the body: Dump
   writes the head and the body as they are seen by a handler; an error of the query is returned
   and nothing written, if nobody was told it before; an error of the body is returned behind the
   head; a request without version makes it panic.  Only the query, which is read in, changes. *)
Theorem C78_dump_exact : forall CS (cparse : CS -> bytes -> bool -> CS * (bytes * bytes * option cerr)) max r q raw before l e (b : body CS) c res b' c',
  (q_parsed q = false -> kv_pairs (q_params q) = []) -> Reading raw l e -> r_query r = fst (q_calls (query_set q raw) before) ->
  body_bytes cparse max b c = (res, b', c') ->
  exists q', (forall accesses, Answers l (match raw, before with [], [] => e | _, _ => None end) accesses (snd (q_calls q' accesses))) /\
  dump cparse max r b c =
    match told raw before e with
    | Some err => (DOk [] (Some (DQuery err)), set_query q' r, b, c)
    | None =>
        match r_proto r with
        | PUnknown => (DPanic, set_query q' r, b, c)
        | _ =>
            let head := dump_head r (dumped_query raw l) in
            match res with
            | BROk d => (DOk (head ++ d) None, set_query q' r, b', c')
            | BRErr err => (DOk head (Some (DBody err)), set_query q' r, b', c')
            | BRPanic => (DPanic, set_query q' r, b', c')
            | BRStuck => (DStuck, set_query q' r, b', c')
            end
        end
    end.
Proof. exact dump_exactly. Qed.
Print Assumptions C78_dump_exact.
(* a query with an error: nothing is dumped, unless a handler has asked for the query before *)
Example C78_dump_case : exists p, feed ex_cfg (new_parser 100 60 60 new_request) [crlf_lines [B "GET /a?x=1&y=%2 HTTP/1.1"; []]] = (RDone p [], []) /\
  (let '(d, _, _, _) := dump ref_parse 100 (p_req p) (body_init (new_body (KSize 0 false)) (p_req p)) (new_client [] []) in d = DOk [] (Some (DQuery ErrURIDecoding))) /\
  (let r := set_query (fst (q_calls (r_query (p_req p)) [AAll])) (p_req p) in
   let '(d, _, _, _) := dump ref_parse 100 r (body_init (new_body (KSize 0 false)) r) (new_client [] []) in
   d = DOk (crlf_lines [B "GET /a? HTTP/1.1"; B "Content-Length: 0"; []]) None).
Proof.
  destruct (feed ex_cfg (new_parser 100 60 60 new_request) [crlf_lines [B "GET /a?x=1&y=%2 HTTP/1.1"; []]]) as [x rs] eqn:E.
  vm_compute in E. injection E as <- <-. eexists. split; [reflexivity|]. split; vm_compute; reflexivity.
Qed.
