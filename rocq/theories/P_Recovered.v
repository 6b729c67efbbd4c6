(* Property C112: a server and the same server behind Recover. *)
From Verif Require Import M_Base M_Status M_Method M_Proto M_KeyValue M_Query M_Request M_Parser M_Client M_Body
  M_Response M_Serializer M_Suit M_Path M_Radix M_Router M_Middleware M_Bundled S_KeyValue S_Chunk S_Head S_Parser S_Body S_Response S_Conn S_Split S_Routes S_Router S_Serve S_Recovered
  L_Base L_Chunk L_Conn2 L_ConnProps L_Router5 L_RouterEx L_Serve L_ServeEx L_Recovered P_Parser P_Guarded P_Frail.

(* C112: for all bytes in all reads, all handlers and error handlers, also those that take the
   connection over: putting Recover in front changes nothing, unless the connection ends in a panic;
   and then what had been sent until then is the same.  So whatever is proved of connections behind
   Recover holds without it up to the first panic. *)
Theorem C112_until_panic : forall CS cparse max cfg W (on_request : handler W) (on_error : world W -> request -> http_error -> hprog (world W)),
  forall fuel (st : conn CS (world W)),
  let plain := serve cparse max cfg on_request on_error fuel st in
  let safe := serve cparse max cfg (recovering on_request) (recovering_errors on_error) fuel st in
  (fst plain <> EndPanic -> safe = plain) /\ SentFirst (snd plain) (snd safe).
Proof.
  intros CS cparse max cfg W on_request on_error fuel st plain safe. subst plain safe.
  destruct (until_panic CS cparse max cfg (world W) on_request (recovering on_request) on_error (recovering_errors on_error)
    (recovering_unless CS cparse max W on_request) (fun w r e => recovering_unless CS cparse max W (fun w r => on_error w r e) w r) fuel st) as [E|[E K]].
  - rewrite E. split; [reflexivity|]. exists []. symmetry. apply app_nil_r.
  - split; [intros H; contradiction|exact K].
Qed.
Print Assumptions C112_until_panic.

(* the handler of the second of three requests panics *)
Definition ex_bare (w : world (list nat)) (r : request) : hprog (world (list nat)) :=
  if beqb (r_path r) (B "/b") then HBody OBytes (fun _ => HCrash) else repeat_body w r.
Definition ex_bare_error (w : world (list nat)) (r : request) (e : http_error) : hprog (world (list nat)) := HCrash.
Example C112_until_panic_case :
  let plain net := serve ref_parse 100 ex_cfg ex_bare ex_bare_error 50 (shop_conn net) in
  let safe net := serve ref_parse 100 ex_cfg (recovering ex_bare) (recovering_errors ex_bare_error) 50 (shop_conn net) in
  fst (plain [ex_stream]) = EndPanic /\
  cl_out (k_client (snd (plain [ex_stream]))) = [ok_text (B "HTTP/1.1") (B "secret")] /\
  fst (safe [ex_stream]) = EndRead /\
  cl_out (k_client (snd (safe [ex_stream]))) = [ok_text (B "HTTP/1.1") (B "secret"); ex_500; ok_text (B "HTTP/1.1") (B "abc")].
Proof.
  split; [vm_compute; reflexivity|]. split; [vm_compute; reflexivity|]. split; [vm_compute; reflexivity|]. vm_compute. reflexivity.
Qed.
