(* C99 for handlers that run at the same time, and from the bytes that arrive on many connections
   to the bytes that are sent. *)
From Verif Require Import M_Base M_Status M_Method M_Proto M_KeyValue M_Query M_Request M_Parser M_Client M_Body M_Response M_Serializer M_Suit M_Path M_Radix M_Router M_Virtual M_Tools M_Many M_Overlap
  S_Static S_KeyValue S_Chunk S_Head S_Parser S_Body S_Response S_Conn S_Split S_Routes S_Router S_Serve S_Fail S_Many S_Overlap L_Base L_Router5 L_Chunk L_Serve L_ConnProps L_ServeEx L_Many L_Overlap P_Parser P_Serve P_Many.

(* C99: handlers may also run at the same time, and see whatever others have or have not left:
   a connection is read, answered and ended as if it were alone.  Missing: as in C99_partial. *)
Theorem C99_overlap_partial : forall CS (cparse : CS -> bytes -> bool -> CS * (bytes * bytes * option cerr)) max_body cfg W (os : list (list nat * rop W)) x,
  Running os x -> PlainAliases os -> OwnApp os ->
  forall l m m' i st, nth_error (m_slots m) i = Some (Going st) -> steps_seeing cparse max_body cfg (on_request x) (on_error x) l m = Some m' ->
  AsksOnly cparse max_body cfg (on_request x) (on_error x) NotTrace st ->
  exists y, nth_error (m_slots m') i = Some y /\ LikeSlot y (alone cparse max_body cfg (on_request x) (on_error x) (turns i (map fst l)) st).
Proof.
  intros CS cparse max_body cfg W os x HR HP HA l m m' i st Hi Hl Hask.
  apply (alone_seeing CS cparse max_body cfg (world W) (on_request x) (on_error x) NotTrace (router_own W os x HR HP HA) l st m m' i (Going st) Hi Hl Hask 0). repeat split.
Qed.
Print Assumptions C99_overlap_partial.
(* one after the other is one of the ways to run *)
Theorem C99_overlap_sequence : forall CS (cparse : CS -> bytes -> bool -> CS * (bytes * bytes * option cerr)) max_body cfg W (orq : W -> request -> hprog W) oe l (m : many CS W),
  exists ws, List.length ws = List.length l /\ forall m', steps cparse max_body cfg orq oe l m = Some m' -> steps_seeing cparse max_body cfg orq oe (combine l ws) m = Some m'.
Proof. exact steps_as_seeing. Qed.
Print Assumptions C99_overlap_sequence.
(* C99 with C72: on each of the connections served at once, in whatever order and however their
   handlers overlap, a client that sends well-formed requests gets the responses of the handlers
   that are registered for them (Dialogue): a beginning of them while it is served, within
   finitely many turns, and all of them, nothing else, once it is over.
   Missing: what C72_end_to_end_partial and C99_partial leave out; failing writes. *)
Theorem C99_served_partial : forall CS cparse encoded fresh inside,
  DecoderOk CS cparse encoded fresh inside -> forall max, (max < two64)%Z ->
  forall cfg umax kmax vmax fbs defs, distinct_names defs ->
  forall W (os : list (list nat * rop W)) x, Running os x -> PlainAliases os -> OrdinaryApp fbs os -> OwnApp os -> QuietApp os ->
  forall reqs past (st : conn CS (world W)) tail, Routable os reqs ->
  Between umax kmax vmax fbs defs fresh past st -> cl_wres (k_client st) = [] ->
  Forall (GoodRequest encoded (cfg_limits cfg umax kmax vmax) max) reqs ->
  Unfinished (cfg_limits cfg umax kmax vmax) tail ->
  stream (k_client st) = concat (map wire reqs) ++ tail ->
  (forall q, In q reqs -> h_method (q_head q) <> TRACE) ->
  exists outs w' closed n, Dialogue defs os reqs (k_world st) past outs w' closed /\
  forall l m m' i, nth_error (m_slots m) i = Some (Going st) -> steps_seeing cparse max cfg (on_request x) (on_error x) l m = Some m' ->
    match nth_error (m_slots m') i with
    | Some (Going st') => ((turns i (map fst l) < n)%nat \/ NoticeFails cparse max (on_error x)) /\ exists left, cl_out (k_client st) ++ outs = cl_out (k_client st') ++ left
    | Some (Over e st') => cl_out (k_client st') = cl_out (k_client st) ++ outs /\
                           (e = (match closed with None => EndRead | Some _ => EndWrite end) \/ NoticeFails cparse max (on_error x))
    | None => False
    end.
Proof. exact served_at_once. Qed.
Print Assumptions C99_served_partial.

(* the shop of C72: its premises can be met; two clients, whose handlers see anything *)
Lemma shop_quiet : QuietApp shop.
Proof. intros addr o [[= _ <-]|[[= _ <-]|[]]]; (split; [intros w r; apply Nw_body; intros out; apply Nw_ret|apply Forall_nil]). Qed.
Example C99_served_case : exists x, Running shop x /\ PlainAliases shop /\ OrdinaryApp 64 shop /\ OwnApp shop /\ QuietApp shop /\ Routable shop ex_reqs /\
  Forall (GoodRequest chunked_text ex_lim 100) ex_reqs /\ (forall q, In q ex_reqs -> h_method (q_head q) <> TRACE) /\
  let a := [firstn 20 ex_stream; firstn 50 (skipn 20 ex_stream); []; skipn 70 ex_stream] in
  stream (k_client (shop_conn a)) = concat (map wire ex_reqs) ++ B "GE" /\
  let m := steps_seeing ref_parse 100 ex_cfg (on_request x) (on_error x)
    [(0%nat, ([1; 2]%nat, B "x")); (1%nat, ([], [])); (0%nat, ([7]%nat, [])); (1%nat, ([3]%nat, B "yz")); (0%nat, ([], [])); (0%nat, ([5]%nat, B "w")); (0%nat, ([], [])); (0%nat, ([9]%nat, []))]
    (shop_many a [get_c; get_c]) in
  sends_at m 0 = [ok_text (B "HTTP/1.1") (B "secret"); crlf_lines [B "HTTP/1.1 404 Not Found"; B "Content-Type: text/html"; B "Content-Length: 0"; []];
     crlf_lines [B "HTTP/1.1 405 Method Not Allowed"; B "Allow: GET"; B "Content-Type: text/html"; B "Content-Length: 0"; []]].
Proof.
  eexists. split; [apply start_running; vm_compute; reflexivity|]. split; [exact shop_plain|]. split; [exact shop_ordinary|]. split; [exact shop_own|]. split; [exact shop_quiet|].
  split; [intros H; destruct (shop_static H)|]. split; [exact ex_reqs_good|].
  split; [intros q Hq; cbn in Hq; repeat destruct Hq as [<-|Hq]; try discriminate; contradiction|].
  cbv zeta. split; vm_compute; reflexivity.
Qed.
