(* Property C89: virtual hosts over a connection. *)
From Verif Require Import M_Base M_Status M_Method M_Proto M_KeyValue M_Query M_Request M_Parser M_Client M_Body
  M_Response M_Serializer M_Suit M_Virtual S_KeyValue S_Static S_Virtual S_Chunk S_Head S_Parser S_Body S_Response S_Conn S_Fail S_VirtualServe
  L_Base L_Body2 L_Chunk L_Conn2 L_Conn3 L_ConnProps L_Virtual L_Fail L_VirtualServe P_Parser P_Conn P_Fail.

(* C89: the Host lines of a request say where it goes: always somewhere, and to one place *)
Theorem C89_one_place : forall W (os : list (vop W)) hs, exists c, SendsTo os hs c /\ forall c', SendsTo os hs c' -> c' = c.
Proof.
  intros W os hs.
  destruct (sends_all W os hs) as [c H]. exists c. split; [exact H|]. intros c' H'. exact (sends_once W os hs c' c H' H).
Qed.
Print Assumptions C89_one_place.

(* C89: for all tables of hosts, all pipelined well-formed requests, cut into reads in any way,
   over a new connection or one between two requests: each request is answered by the router
   that its own Host lines say, or refused with 400 or 421, whatever the hosts of the
   requests before it were. *)
Theorem C89_dialogue : forall CS cparse encoded fresh inside,
  DecoderOk CS cparse encoded fresh inside -> forall max, (max < two64)%Z ->
  forall cfg umax kmax vmax fbs defs, distinct_names defs ->
  forall W (os : list (vop W)), OrdinaryHosts fbs os ->
  forall reqs past (st : conn CS W) tail,
  Between umax kmax vmax fbs defs fresh past st ->
  Forall (GoodRequest encoded (cfg_limits cfg umax kmax vmax) max) reqs ->
  Unfinished (cfg_limits cfg umax kmax vmax) tail ->
  stream (k_client st) = concat (map wire reqs) ++ tail ->
  exists n outs closed st1,
    HostDialogue defs os reqs (k_world st) past outs (k_world st1) closed /\
    cl_out (k_client st1) = cl_out (k_client st) ++ outs /\
    forall fuel, (n <= fuel)%nat ->
      serve cparse max cfg (v_request (v_build os)) (v_error (v_build os)) fuel st =
      close_with cparse max (v_error (v_build os)) (match closed with None => EndRead | Some _ => EndWrite end) st1.
Proof. exact virtual_served. Qed.
Print Assumptions C89_dialogue.

(* C89: with writes that may fail: the same responses, cut at the first failing write *)
Theorem C89_writes : forall CS cparse encoded fresh inside,
  DecoderOk CS cparse encoded fresh inside -> forall max, (max < two64)%Z ->
  forall cfg umax kmax vmax fbs defs, distinct_names defs ->
  forall W (os : list (vop W)), OrdinaryHosts fbs os -> QuietHosts os ->
  forall reqs past (st : conn CS W) tail outcomes,
  Between umax kmax vmax fbs defs fresh past st -> cl_wres (k_client st) = [] ->
  Forall (GoodRequest encoded (cfg_limits cfg umax kmax vmax) max) reqs ->
  Unfinished (cfg_limits cfg umax kmax vmax) tail ->
  stream (k_client st) = concat (map wire reqs) ++ tail ->
  exists n outs closed w1,
    HostDialogue defs os reqs (k_world st) past outs w1 closed /\
    forall fuel, (n <= fuel)%nat -> exists sent,
      cl_out (k_client (snd (serve cparse max cfg (v_request (v_build os)) (v_error (v_build os)) fuel (conn_over outcomes st)))) =
        cl_out (k_client st) ++ sent /\
      ((Passes outcomes outs /\ sent = outs) \/ Cuts outcomes outs sent).
Proof.
  intros CS cparse encoded fresh inside Hd max Hm cfg umax kmax vmax fbs defs Hn W os Ho Hq reqs past st tail outcomes Hb Hw Hg Hu Hs.
  destruct (quiet_hosts W os Hq) as [Q1 Q2].
  destruct (C07_writes_partial CS cparse encoded fresh inside Hd max Hm cfg umax kmax vmax fbs defs Hn W (v_request (v_build os)) (v_error (v_build os)) Q1 Q2
    reqs past st tail outcomes (fun q w r _ _ => ordinary_hosts W fbs os Ho w r) Hb Hw Hg Hu Hs) as (n & outs & closed & w1 & C & F).
  exists n, outs, closed, w1. split; [apply host_dialogue; exact C|exact F].
Qed.
Print Assumptions C89_writes.

(* two hosts without a default router; five requests over one connection *)
Definition ex_says (name : bytes) : router log :=
  RouterOf (fun w r => HRet (Some (set_rbody name new_response)) (w ++ [(name, r_path r)])) (fun w r e => HRet None (w ++ [(name, B "error")])).
Definition ex_hosts : list (vop log) := [VHost (B "a.com") (ex_says (B "A")); VHost (B "www.b.com:80") (ex_says (B "B"))].
Definition ex_to_hosts (hs : list bytes) : req :=
  Req (Head GET (B "/x") (B "/x") None HTTP11 true (map (fun h => HLine (B "Host") 1 h true) hs) true) [] [].
Example C89_case : let net := [concat (map (fun hs => wire (ex_to_hosts hs)) [[B "a.com"]; [B "B.com"]; [B "a.com"; B "a.com"]; [B "c.com"]; [B "a.com"]])] in
  OrdinaryHosts 64 ex_hosts /\ QuietHosts ex_hosts /\
  SendsTo ex_hosts [B "c.com"] (inr 421%N) /\
  (let x := serve ref_parse 100 ex_cfg (v_request (v_build ex_hosts)) (v_error (v_build ex_hosts)) 50 (ex_server net) in
   map (fun o => firstn 12 o) (answers x) = [B "HTTP/1.1 200"; B "HTTP/1.1 200"; B "HTTP/1.1 400"; B "HTTP/1.1 421"; B "HTTP/1.1 200"] /\
   k_world (snd x) = [(B "A", B "/x"); (B "B", B "/x"); (B "A", B "/x")]).
Proof.
  cbv zeta. split; [|split; [|split]].
  - intros o x Hi Ho w r. assert (E : x = ex_says (B "A") \/ x = ex_says (B "B")).
    { unfold ex_hosts in Hi. destruct Hi as [<-|[<-|[]]]; (destruct Ho as [(h & E)|E]; [injection E as _ <-|discriminate E]); [left|right]; reflexivity. }
    destruct E as [->| ->]; apply Ta_ret; intros f E; injection E as <-; apply Sd_plain; reflexivity.
  - intros o x Hi Ho. assert (E : x = ex_says (B "A") \/ x = ex_says (B "B")).
    { unfold ex_hosts in Hi. destruct Hi as [<-|[<-|[]]]; (destruct Ho as [(h & E)|E]; [injection E as _ <-|discriminate E]); [left|right]; reflexivity. }
    destruct E as [->| ->]; split; intros; apply Nw_ret.
  - pose proof (hosts_spec log ex_hosts (B "c.com")) as H. pose proof (default_spec log ex_hosts) as D. apply To_421; [exact H|exact D].
  - vm_compute. repeat split; reflexivity.
Qed.
