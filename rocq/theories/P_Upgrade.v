(* Properties C07, C47, C72, C89 on connections on which requests ask for upgrades. *)
From Verif Require Import M_Base M_Status M_Method M_Proto M_KeyValue M_Query M_Request M_Parser M_Client M_Body
  M_Response M_Serializer M_Suit M_Path M_Radix M_Router M_Virtual S_Static S_KeyValue S_Chunk S_Head S_Parser S_Body S_Response S_Conn S_Fail S_Split S_Routes S_Router
  S_Serve S_VirtualServe S_Upgrade S_UpgradeServe
  L_Base L_Body2 L_Chunk L_Conn2 L_Conn3 L_ConnProps L_Fail L_Serve L_VirtualServe L_Upgrade P_Parser.

(* C07, C47: all pipelined well-formed requests, with or without Upgrade lines, however they are
   cut into reads.  Each is answered once and in order (Exchange); one that asks for HTTP/1.0
   or HTTP/1.1 gets a 101 response and then the response in the version asked for, in one
   write.  What C47 found is in Replies: the 101 response names the version of the request,
   and repeats the announcements of all earlier switches; later responses are in the version
   of their request; any known protocol in an Upgrade line, h2c too, keeps the connection
   open.
   Missing: handlers that take the connection over (C59_hijack), body bytes of earlier requests
   (C11_refuted) and default headers (C26), as in C07_conversation_partial. *)
Theorem C07_upgrades_partial : forall CS cparse encoded fresh inside,
  DecoderOk CS cparse encoded fresh inside -> forall max, (max < two64)%Z ->
  forall cfg umax kmax vmax fbs defs, distinct_names defs ->
  forall W (on_request : W -> request -> hprog W) (on_error : W -> request -> http_error -> hprog W) reqs past ups (st : conn CS W) tail,
  (forall q w r, In q reqs -> Shows (q_head q) r -> Ordinary fbs (on_request w r)) ->
  Amid umax kmax vmax fbs defs fresh past ups st ->
  Forall (SoundRequest encoded (cfg_limits cfg umax kmax vmax) max) reqs ->
  Unfinished (cfg_limits cfg umax kmax vmax) tail ->
  stream (k_client st) = concat (map wire reqs) ++ tail ->
  exists n outs closed st1,
    Exchange defs (Answered on_request) reqs (k_world st) past ups outs (k_world st1) closed /\
    cl_out (k_client st1) = cl_out (k_client st) ++ outs /\
    forall fuel, (n <= fuel)%nat ->
      serve cparse max cfg on_request on_error fuel st =
      close_with cparse max on_error (match closed with None => EndRead | Some _ => EndWrite end) st1.
Proof. exact whole_exchange. Qed.
Print Assumptions C07_upgrades_partial.
(* ... of which C07_conversation_partial is the case without Upgrade lines *)
Theorem C07_upgrades_none : forall W defs (on_request : W -> request -> hprog W) reqs w past ups outs w' closed,
  Forall (fun q => last_value (B "upgrade") (h_lines (q_head q)) = None) reqs ->
  Exchange defs (Answered on_request) reqs w past ups outs w' closed <-> Conversation defs on_request reqs w past outs w' closed.
Proof. exact exchange_plain. Qed.
Print Assumptions C07_upgrades_none.
Theorem C07_upgrades_new : forall CS W (fresh : CS -> Prop) umax kmax vmax fbs defs enc cs c (w : W),
  fresh cs -> writes_ok c -> Amid umax kmax vmax fbs defs fresh [] [] (new_conn umax kmax vmax fbs defs enc cs c w).
Proof. exact new_amid. Qed.
Print Assumptions C07_upgrades_new.
(* ... and with writes that may fail *)
Theorem C07_upgrades_writes_partial : forall CS cparse encoded fresh inside,
  DecoderOk CS cparse encoded fresh inside -> forall max, (max < two64)%Z ->
  forall cfg umax kmax vmax fbs defs, distinct_names defs ->
  forall W (on_request : W -> request -> hprog W) (on_error : W -> request -> http_error -> hprog W),
  (forall w r, NoWrites (on_request w r)) -> (forall w r e, NoWrites (on_error w r e)) ->
  forall reqs past ups (st : conn CS W) tail outcomes,
  (forall q w r, In q reqs -> Shows (q_head q) r -> Ordinary fbs (on_request w r)) ->
  Amid umax kmax vmax fbs defs fresh past ups st -> cl_wres (k_client st) = [] ->
  Forall (SoundRequest encoded (cfg_limits cfg umax kmax vmax) max) reqs ->
  Unfinished (cfg_limits cfg umax kmax vmax) tail ->
  stream (k_client st) = concat (map wire reqs) ++ tail ->
  exists n outs closed w1,
    Exchange defs (Answered on_request) reqs (k_world st) past ups outs w1 closed /\
    forall fuel, (n <= fuel)%nat -> exists sent,
      cl_out (k_client (snd (serve cparse max cfg on_request on_error fuel (conn_over outcomes st)))) = cl_out (k_client st) ++ sent /\
      ((Passes outcomes outs /\ sent = outs) \/ Cuts outcomes outs sent).
Proof.
  intros CS cparse encoded fresh inside Hd max Hm cfg umax kmax vmax fbs defs Hn W on_request on_error H1 H2 reqs past ups st tail outcomes Ho Hb Hw Hg Hu Hs.
  destruct (whole_exchange CS cparse encoded fresh inside Hd max Hm cfg umax kmax vmax fbs defs Hn W on_request on_error reqs past ups st tail Ho Hb Hg Hu Hs)
    as (n & outs & closed & st1 & C & Eo & F).
  exists n, outs, closed, (k_world st1). split; [exact C|]. intros fuel Hf.
  destruct (serve_sim CS cparse max cfg W on_request on_error H1 H2 fuel outcomes st Hw) as [_ (ws & Ew & S)].
  rewrite (F fuel Hf) in Ew.
  match type of Ew with context [close_with _ _ _ ?E st1] => pose proof (close_out CS cparse max W on_error H2 E st1) as [K _] end.
  rewrite K, Eo in Ew. apply app_inv_head in Ew. subst ws.
  destruct S as [(P & _ & Ec)|(ws' & Cu & Eo' & _)].
  - exists outs. split; [|left; split; [exact P|reflexivity]]. rewrite Ec, (F fuel Hf). cbn [over cl_out]. rewrite K. exact Eo.
  - exists ws'. split; [exact Eo'|]. right. exact Cu.
Qed.
Print Assumptions C07_upgrades_writes_partial.

(* C72 with upgrades: each request is answered by the handler registered for it.  Missing: what
   is missing in C72_end_to_end_partial, except for the upgrades. *)
Theorem C72_upgrades_partial : forall CS cparse encoded fresh inside,
  DecoderOk CS cparse encoded fresh inside -> forall max, (max < two64)%Z ->
  forall cfg umax kmax vmax fbs defs, distinct_names defs ->
  forall W (os : list (list nat * rop W)) x, Running os x -> PlainAliases os -> OrdinaryApp fbs os ->
  forall reqs past ups (st : conn CS (world W)) tail, Routable os reqs ->
  Amid umax kmax vmax fbs defs fresh past ups st ->
  Forall (SoundRequest encoded (cfg_limits cfg umax kmax vmax) max) reqs ->
  Unfinished (cfg_limits cfg umax kmax vmax) tail ->
  stream (k_client st) = concat (map wire reqs) ++ tail ->
  exists n outs closed st1,
    Exchange defs (RoutedTo os) reqs (k_world st) past ups outs (k_world st1) closed /\
    cl_out (k_client st1) = cl_out (k_client st) ++ outs /\
    forall fuel, (n <= fuel)%nat ->
      serve cparse max cfg (on_request x) (on_error x) fuel st =
      close_with cparse max (on_error x) (match closed with None => EndRead | Some _ => EndWrite end) st1.
Proof.
  intros CS cparse encoded fresh inside HD max Hmax cfg umax kmax vmax fbs defs Hdefs W os x HR HA HO reqs past ups st tail HRo HB HG HU HS.
  destruct (whole_exchange CS cparse encoded fresh inside HD max Hmax cfg umax kmax vmax fbs defs Hdefs (world W) (on_request x) (on_error x) reqs past ups st tail
    (ordinary_router W os x HR HA fbs reqs HO HRo) HB HG HU HS) as (n & outs & closed & st1 & C1 & C2 & C3).
  exists n, outs, closed, st1. split; [|auto]. eapply exchange_answers; [|exact C1].
  intros w q resp w1 r' Hi (r & S & R). destruct (dispatched_runs W os x HR HA reqs q r _ w _ resp w1 r' HRo Hi S R) as (h & r1 & D1 & D2).
  exists r, h, r1. auto.
Qed.
Print Assumptions C72_upgrades_partial.

(* C89 with upgrades *)
Theorem C89_upgrades : forall CS cparse encoded fresh inside,
  DecoderOk CS cparse encoded fresh inside -> forall max, (max < two64)%Z ->
  forall cfg umax kmax vmax fbs defs, distinct_names defs ->
  forall W (os : list (vop W)), OrdinaryHosts fbs os ->
  forall reqs past ups (st : conn CS W) tail,
  Amid umax kmax vmax fbs defs fresh past ups st ->
  Forall (SoundRequest encoded (cfg_limits cfg umax kmax vmax) max) reqs ->
  Unfinished (cfg_limits cfg umax kmax vmax) tail ->
  stream (k_client st) = concat (map wire reqs) ++ tail ->
  exists n outs closed st1,
    Exchange defs (HostedBy os) reqs (k_world st) past ups outs (k_world st1) closed /\
    cl_out (k_client st1) = cl_out (k_client st) ++ outs /\
    forall fuel, (n <= fuel)%nat ->
      serve cparse max cfg (v_request (v_build os)) (v_error (v_build os)) fuel st =
      close_with cparse max (v_error (v_build os)) (match closed with None => EndRead | Some _ => EndWrite end) st1.
Proof.
  intros CS cparse encoded fresh inside HD max Hmax cfg umax kmax vmax fbs defs Hdefs W os HO reqs past ups st tail HB HG HU HS.
  destruct (whole_exchange CS cparse encoded fresh inside HD max Hmax cfg umax kmax vmax fbs defs Hdefs W (v_request (v_build os)) (v_error (v_build os)) reqs past ups st tail
    (fun q w r _ _ => ordinary_hosts W fbs os HO w r) HB HG HU HS) as (n & outs & closed & st1 & C1 & C2 & C3).
  exists n, outs, closed, st1. split; [|auto]. eapply exchange_answers; [|exact C1].
  intros w q resp w1 r' Hi (r & S & R). exact (hosted W os _ _ w r _ resp w1 r' S R).
Qed.
Print Assumptions C89_upgrades.

(* HTTP/1.0 requests: one that asks for HTTP/1.1, a plain one that is kept alive, one that asks
   for HTTP/1.1 again, and one that asks for h2c, after which the connection stays open although
   the version of its request is 1.0 *)
Definition ex_asks (token : bytes) : req :=
  Req (Head GET (B "/u") (B "/u") None HTTP10 true [HLine (B "Upgrade") 1 token true] true) [] [].
Definition ex_alive : req := Req (Head GET (B "/k") (B "/k") None HTTP10 true [HLine (B "Connection") 1 (B "keep-alive") true] true) [] [].
Definition ex_wishes : list req := [ex_asks (B "HTTP/1.1"); ex_alive; ex_asks (B "foo, http/1.1"); ex_asks (B "h2c"); ex_alive].
Example C07_upgrades_case :
  Forall (SoundRequest chunked_text ex_lim 100) ex_wishes /\
  map (fun q => (wished (q_head q), switch_to (q_head q))) ex_wishes =
    [(HTTP11, Some HTTP11); (PUnknown, None); (HTTP11, Some HTTP11); (HTTP2, None); (PUnknown, None)] /\
  answers (ex_serve ex_echo [concat (map wire ex_wishes)]) =
    [crlf_lines [B "HTTP/1.0 101 Switching Protocol"; B "Connection: upgrade"; B "Upgrade: HTTP/1.0"; B "Content-Type: text/html"; []] ++ ok_text (B "HTTP/1.1") [];
     ok_text (B "HTTP/1.0") [];
     crlf_lines [B "HTTP/1.0 101 Switching Protocol"; B "Connection: upgrade"; B "Upgrade: HTTP/1.0"; B "Connection: upgrade"; B "Upgrade: HTTP/1.0"; B "Content-Type: text/html"; []]
       ++ ok_text (B "HTTP/1.1") [];
     ok_text (B "HTTP/1.0") [];
     ok_text (B "HTTP/1.0") []].
Proof.
  split; [|split; vm_compute; reflexivity].
  unfold ex_wishes. repeat (apply Forall_cons || apply Forall_nil); constructor; cbn [q_head q_wire q_text ex_asks ex_alive];
    try (unfold ex_asks, ex_alive; head_ok); try head_fits; try (vm_compute; discriminate); cbn; repeat split; vm_compute; discriminate || reflexivity.
Qed.
