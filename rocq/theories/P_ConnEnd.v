(* Property C67: how the end of a connection is reported. *)
From Verif Require Import M_Base M_Status M_Method M_Proto M_KeyValue M_Query M_Request M_Parser M_Client M_Body
  M_Response M_Serializer M_Suit S_Chunk S_Conn L_ConnProps L_ConnEnd P_Parser.

(* C67: for all streams, however malformed, all segmentations, failing reads and writes, and all
   handlers: after any number of requests the last call is one of OnError, the only one on
   the connection: with ErrCloseConnection, or with the error of the malformed head.  A
   connection that was taken over is not reported. *)
Theorem C67_end : forall CS W (cparse : CS -> bytes -> bool -> CS * (bytes * bytes * option cerr)) max cfg (seen : W -> list call) on_request on_error,
  Notices cparse max seen on_request on_error ->
  forall fuel st e st', serve cparse max cfg on_request on_error fuel st = (e, st') -> Closes (seen (k_world st)) e (seen (k_world st')).
Proof. exact end_seen. Qed.
Print Assumptions C67_end.

Definition ex_count (net : list (bytes * option neterr)) (fails : list (option nat)) : ending * conn kstate (list call) :=
  serve ref_parse 100 ex_cfg count_requests count_errors 50
    (new_conn 100 100 100 64 [] enc_plain (KSize 0 false) (new_client net fails) []).
Definition ex_one : bytes := crlf_lines [B "GET / HTTP/1.1"; []].
Example C67_example : Notices ref_parse 100 (fun w => w) count_requests count_errors /\
  (let x := ex_count [(ex_one ++ ex_one, None)] [] in fst x = EndRead /\ k_world (snd x) = [CRequest; CRequest; CError ErrCloseConnection]) /\
  (let x := ex_count [(ex_one ++ B "GET", None); (B "DA ", None)] [] in fst x = EndParse /\ k_world (snd x) = [CRequest; CError ErrMethodNotImplemented]) /\
  (let x := ex_count [(crlf_lines [B "GET / HTTP/1.1"; B "Connection: close"; []] ++ ex_one, None)] [] in fst x = EndWrite /\ k_world (snd x) = [CRequest; CError ErrCloseConnection]) /\
  (let x := ex_count [(crlf_lines [B "POST / HTTP/1.1"; B "Content-Length: 9"; []] ++ B "abc", None)] [] in k_world (snd x) = [CRequest; CError ErrCloseConnection]).
Proof. split; [apply counts|]. vm_compute. repeat split; reflexivity. Qed.
