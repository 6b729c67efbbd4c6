(* Property C112: handlers that panic. *)
From Verif Require Import M_Base M_Status M_Method M_Proto M_KeyValue M_Query M_Request M_Parser M_Client M_Body
  M_Response M_Serializer M_Suit M_Router M_Middleware M_Bundled M_Many S_KeyValue S_Chunk S_Head S_Parser S_Body S_Response S_Conn S_Bundled S_Crash
  L_Bundled L_Conn2 L_Crash L_Crash2 L_ConnProps P_Parser.

(* C112: false as it stands: a panic is recovered nowhere.  Three pipelined requests, the handler of
   the second one panics: the first is answered, the third is not, and the process is gone
   (C99_crash_refuted: with all other connections). *)
Theorem C112_refuted : Forall (GoodRequest chunked_text ex_lim 100) ex_reqs /\ (forall w r, Tame (CanBeSent 64) true (ex_second w r)) /\
  fst (ex_serve ex_second [ex_stream]) = EndPanic /\
  answers (ex_serve ex_second [ex_stream]) = [ok_text (B "HTTP/1.1") (B "secret")] /\
  answers (ex_serve ex_echo [ex_stream]) = [ok_text (B "HTTP/1.1") (B "secret"); ok_text (B "HTTP/1.1") []; ok_text (B "HTTP/1.1") (B "abc")].
Proof. split; [exact ex_reqs_good|]. split; [exact ex_second_tame|]. vm_compute. repeat split; reflexivity. Qed.
Print Assumptions C112_refuted.

(* C112: for all sequences of well-formed requests, all segmentations and all handlers that may panic
   anywhere: either none does, and they are served as a conversation (C07), or they are up to the
   first that panics: the requests in front of it are answered completely and in order, that one
   gets nothing, not even a part of a response, its handler has seen that request and no other, and
   the connection ends there.
   Missing: the requests after it, which are lost; handlers that take the connection over (C59) and
   what C07_conversation_partial leaves out. *)
Theorem C112_partial : forall CS cparse encoded fresh inside,
  DecoderOk CS cparse encoded fresh inside -> forall max, (max < two64)%Z ->
  forall cfg umax kmax vmax fbs defs, distinct_names defs ->
  forall W (on_request : W -> request -> hprog W) (on_error : W -> request -> http_error -> hprog W),
  forall reqs past (st : conn CS W) tail,
  (forall q w r, In q reqs -> Shows (q_head q) r -> Tame (CanBeSent fbs) true (on_request w r)) ->
  Between umax kmax vmax fbs defs fresh past st ->
  Forall (GoodRequest encoded (cfg_limits cfg umax kmax vmax) max) reqs ->
  Unfinished (cfg_limits cfg umax kmax vmax) tail ->
  stream (k_client st) = concat (map wire reqs) ++ tail ->
  (exists n st1, Crashed defs on_request reqs past st st1 /\
     forall fuel, (n <= fuel)%nat -> serve cparse max cfg on_request on_error fuel st = (EndPanic, st1)) \/
  exists n outs closed st1,
    Conversation defs on_request reqs (k_world st) past outs (k_world st1) closed /\
    cl_out (k_client st1) = cl_out (k_client st) ++ outs /\
    forall fuel, (n <= fuel)%nat ->
      serve cparse max cfg on_request on_error fuel st =
      close_with cparse max on_error (match closed with None => EndRead | Some _ => EndWrite end) st1.
Proof. exact crash_connection. Qed.
Print Assumptions C112_partial.

(* C112: of many connections: the process dies exactly with a round of one of them that panics.  That
   round is its last; the other connections are left wherever they were, and none takes another turn. *)
Theorem C112_process_partial : forall CS (cparse : CS -> bytes -> bool -> CS * (bytes * bytes * option cerr)) max cfg W
    (on_request : W -> request -> hprog W) (on_error : W -> request -> http_error -> hprog W) l m m',
  steps cparse max cfg on_request on_error l m = Some m' -> m_dead m = false ->
  (m_dead m' = true <-> exists l0 i m0 st st', l = l0 ++ [i] /\ steps cparse max cfg on_request on_error l0 m = Some m0 /\
     nth_error (m_slots m0) i = Some (Going st) /\
     round cparse max cfg on_request on_error (with_world (m_world m0) st) = inl (EndPanic, st') /\
     nth_error (m_slots m') i = Some (Over EndPanic st') /\
     forall j, j <> i -> nth_error (m_slots m') j = nth_error (m_slots m0) j) /\
  (m_dead m' = true -> forall i l', steps cparse max cfg on_request on_error (l ++ i :: l') m = None).
Proof. intros. split; [apply dead_last; assumption|]. intros Hd i l'. eapply dead_stops; eassumption. Qed.
Print Assumptions C112_process_partial.

(* C112: behind Recover it holds.  All requests are served as a conversation (C07), in which a request
   whose handler panics is answered with 500 and leaves the state of the application as it was. *)
Theorem C112_recover : forall CS cparse encoded fresh inside,
  DecoderOk CS cparse encoded fresh inside -> forall max, (max < two64)%Z ->
  forall cfg umax kmax vmax fbs defs, distinct_names defs ->
  forall W (next : handler W) (on_error : world W -> request -> http_error -> hprog (world W)),
  forall reqs past (st : conn CS (world W)) tail,
  (forall w r, Tame (CanBeSent fbs) true (next w r)) ->
  Between umax kmax vmax fbs defs fresh past st ->
  Forall (GoodRequest encoded (cfg_limits cfg umax kmax vmax) max) reqs ->
  Unfinished (cfg_limits cfg umax kmax vmax) tail ->
  stream (k_client st) = concat (map wire reqs) ++ tail ->
  exists n outs closed st1,
    Conversation defs (recovering next) reqs (k_world st) past outs (k_world st1) closed /\
    cl_out (k_client st1) = cl_out (k_client st) ++ outs /\
    forall fuel, (n <= fuel)%nat ->
      serve cparse max cfg (recovering next) on_error fuel st =
      close_with cparse max on_error (match closed with None => EndRead | Some _ => EndWrite end) st1.
Proof. intros. eapply whole_connection; eauto. intros. apply recovering_ordinary. assumption. Qed.
Print Assumptions C112_recover.
Theorem C112_recover_exact : forall W more (next : handler W) w r v resp w' r',
  HRun more (recovering next w r) r v resp w' r' <->
  HRun more (next w r) r v resp w' r' \/
  (exists v', HSteps more (next w r) r v Panics r' v') /\ resp = Some internal_error /\ w' = w.
Proof. exact recover_runs. Qed.
Print Assumptions C112_recover_exact.

(* the second of three requests panics *)
Example C112_case : let net := [firstn 20 ex_stream; firstn 50 (skipn 20 ex_stream); []; skipn 70 ex_stream] in
  Forall (GoodRequest chunked_text ex_lim 100) ex_reqs /\ Unfinished ex_lim (B "GE") /\
  Between 100 100 100 64 [] kfresh [] (ex_server net) /\ (forall w r, Tame (CanBeSent 64) true (ex_second w r)) /\
  stream (k_client (ex_server net)) = concat (map wire ex_reqs) ++ B "GE" /\
  fst (ex_serve ex_second net) = EndPanic /\ answers (ex_serve ex_second net) = [ok_text (B "HTTP/1.1") (B "secret")] /\
  k_world (snd (ex_serve ex_second net)) = [(B "/a", B "secret")].
Proof.
  split; [exact ex_reqs_good|]. split; [exact ex_unfinished|]. split; [apply ex_between|]. split; [exact ex_second_tame|].
  vm_compute. repeat split; reflexivity.
Qed.
