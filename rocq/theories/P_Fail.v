(* Property C88: connections whose writes fail. *)
From Verif Require Import M_Base M_Status M_Method M_Proto M_KeyValue M_Query M_Request M_Parser M_Client M_Body
  M_Response M_Serializer M_Suit S_KeyValue S_Chunk S_Head S_Parser S_Body S_Response S_Conn S_Fail L_Base L_Body2 L_Chunk L_Response3
  L_Conn2 L_Conn3 L_ConnProps L_Fail P_Parser P_Conn.

(* C88: for all applications that leave the writing to the server, all streams, all states of a
   connection and all outcomes of its writes: compared with the same connection on which every
   write succeeds, either all writes succeed here too, and then everything is the same (output,
   way to end, every object but the outcomes still to come); or one fails, and then the peer got
   what it would have got before it, the part of it that went out, and nothing else: the
   connection is closed at once (or the error handler, told so, panics or hangs). *)
Theorem C88_cut : forall CS (cparse : CS -> bytes -> bool -> CS * (bytes * bytes * option cerr)) max cfg W
    (on_request : W -> request -> hprog W) (on_error : W -> request -> http_error -> hprog W),
  (forall w r, NoWrites (on_request w r)) -> (forall w r e, NoWrites (on_error w r e)) ->
  forall fuel outcomes (st : conn CS W) e st1 e' st1', cl_wres (k_client st) = [] ->
  serve cparse max cfg on_request on_error fuel st = (e, st1) ->
  serve cparse max cfg on_request on_error fuel (conn_over outcomes st) = (e', st1') ->
  exists ws, cl_out (k_client st1) = cl_out (k_client st) ++ ws /\
  ((Passes outcomes ws /\ e' = e /\ st1' = conn_over (skipn (List.length ws) outcomes) st1) \/
   (exists ws', Cuts outcomes ws ws' /\ cl_out (k_client st1') = cl_out (k_client st) ++ ws' /\
      (e' = EndWrite \/ e' = EndParse \/ ((e' = EndPanic \/ e' = EndStuck) /\ NoticeFails cparse max on_error)))).
Proof.
  intros CS cparse max cfg W on_request on_error H1 H2 fuel outcomes st e st1 e' st1' Hw E E'.
  pose proof (serve_sim CS cparse max cfg W on_request on_error H1 H2 fuel outcomes st Hw) as S. rewrite E, E' in S.
  destruct S as [_ (ws & Eo & S)]. cbn [fst snd] in *. exists ws. split; [exact Eo|].
  destruct S as [(P & (Ee & Es) & Ec)|S]; [left|right; exact S]. split; [exact P|]. split; [exact Ee|]. unfold conn_over. rewrite <- Ec. exact Es.
Qed.
Print Assumptions C88_cut.

(* C88: in bytes: what the peer receives is a prefix of what it would have received *)
Theorem C88_prefix : forall CS (cparse : CS -> bytes -> bool -> CS * (bytes * bytes * option cerr)) max cfg W
    (on_request : W -> request -> hprog W) (on_error : W -> request -> http_error -> hprog W),
  (forall w r, NoWrites (on_request w r)) -> (forall w r e, NoWrites (on_error w r e)) ->
  forall fuel outcomes (st : conn CS W), cl_wres (k_client st) = [] ->
  exists rest, concat (cl_out (k_client (snd (serve cparse max cfg on_request on_error fuel st)))) =
               concat (cl_out (k_client (snd (serve cparse max cfg on_request on_error fuel (conn_over outcomes st))))) ++ rest.
Proof.
  intros CS cparse max cfg W on_request on_error H1 H2 fuel outcomes st Hw.
  destruct (serve_sim CS cparse max cfg W on_request on_error H1 H2 fuel outcomes st Hw) as [_ (ws & Eo & S)].
  destruct S as [(_ & _ & ->)|(ws' & C & Eo' & _)]; [exists []; rewrite app_nil_r; reflexivity|].
  destruct (cuts_prefix _ _ _ C) as [rest Er]. exists rest. rewrite Eo, Eo', !concat_app, Er, app_assoc. reflexivity.
Qed.
Print Assumptions C88_prefix.

(* C07 over connections whose writes may fail: pipelined well-formed requests, and any
   outcomes of the writes.  The responses are those of a Conversation (C07), sent completely, or cut at the first
   failing write.  Missing: what is missing in C07_conversation_partial, except for the failing
   writes. *)
Theorem C07_writes_partial : forall CS cparse encoded fresh inside,
  DecoderOk CS cparse encoded fresh inside -> forall max, (max < two64)%Z ->
  forall cfg umax kmax vmax fbs defs, distinct_names defs ->
  forall W (on_request : W -> request -> hprog W) (on_error : W -> request -> http_error -> hprog W),
  (forall w r, NoWrites (on_request w r)) -> (forall w r e, NoWrites (on_error w r e)) ->
  forall reqs past (st : conn CS W) tail outcomes,
  (forall q w r, In q reqs -> Shows (q_head q) r -> Ordinary fbs (on_request w r)) ->
  Between umax kmax vmax fbs defs fresh past st -> cl_wres (k_client st) = [] ->
  Forall (GoodRequest encoded (cfg_limits cfg umax kmax vmax) max) reqs ->
  Unfinished (cfg_limits cfg umax kmax vmax) tail ->
  stream (k_client st) = concat (map wire reqs) ++ tail ->
  exists n outs closed w1,
    Conversation defs on_request reqs (k_world st) past outs w1 closed /\
    forall fuel, (n <= fuel)%nat -> exists sent,
      cl_out (k_client (snd (serve cparse max cfg on_request on_error fuel (conn_over outcomes st)))) = cl_out (k_client st) ++ sent /\
      ((Passes outcomes outs /\ sent = outs) \/ Cuts outcomes outs sent).
Proof.
  intros CS cparse encoded fresh inside Hd max Hm cfg umax kmax vmax fbs defs Hn W on_request on_error H1 H2 reqs past st tail outcomes Ho Hb Hw Hg Hu Hs.
  destruct (C07_conversation_partial CS cparse encoded fresh inside Hd max Hm cfg umax kmax vmax fbs defs Hn W on_request on_error reqs past st tail Ho Hb Hg Hu Hs)
    as (n & outs & closed & st1 & C & Eo & F).
  exists n, outs, closed, (k_world st1). split; [exact C|]. intros fuel Hf.
  destruct (serve_sim CS cparse max cfg W on_request on_error H1 H2 fuel outcomes st Hw) as [_ (ws & Ew & S)].
  rewrite (F fuel Hf) in Ew.
  match type of Ew with context [close_with _ _ _ ?E st1] => pose proof (close_out CS cparse max W on_error H2 E st1) as [K _] end.
  rewrite K, Eo in Ew. apply app_inv_head in Ew. subst ws.
  destruct S as [(P & _ & Ec)|(ws' & Cu & Eo' & _)].
  - exists outs. split; [|left; split; [exact P|reflexivity]]. rewrite Ec, (F fuel Hf). cbn [over cl_out]. rewrite K. exact Eo.
  - exists ws'. split; [exact Eo'|]. right. exact Cu.
Qed.
Print Assumptions C07_writes_partial.

(* three pipelined requests; the second write fails after 10 bytes: the peer gets the first
   response and 10 bytes of the second, the handler of the third is not called *)
Example C88_case :
  (forall w r, NoWrites (ex_echo w r)) /\ (forall w r e, NoWrites (ex_error w r e)) /\
  let st := ex_server [concat (map wire ex_reqs)] in
  let good := serve ref_parse 100 ex_cfg ex_echo ex_error 50 st in
  let bad := serve ref_parse 100 ex_cfg ex_echo ex_error 50 (conn_over [None; Some 10%nat] st) in
  answers good = [ok_text (B "HTTP/1.1") (B "secret"); ok_text (B "HTTP/1.1") []; ok_text (B "HTTP/1.1") (B "abc")] /\
  answers bad = [ok_text (B "HTTP/1.1") (B "secret"); B "HTTP/1.1 2"] /\ fst bad = EndWrite /\
  k_world (snd bad) = [(B "/a", B "secret"); (B "/b", []); (B "error", B "/b")].
Proof.
  split; [intros w r; apply Nw_body; intros o; apply Nw_ret|]. split; [intros w r e; apply Nw_ret|].
  cbv zeta. repeat split; vm_compute; reflexivity.
Qed.
(* without the condition it is false: a handler that took the connection over may go on writing *)
Example C88_own_writes : let h := fun (w : log) (r : request) => HHijack (fun _ => HConnWrite (B "one") (fun _ => HConnWrite (B "two") (fun _ => HRet None w))) in
  let st := ex_server [concat (map wire ex_reqs)] in
  answers (serve ref_parse 100 ex_cfg h ex_error 50 (conn_over [Some 1%nat] st)) = [B "o"; B "two"].
Proof. vm_compute. reflexivity. Qed.
