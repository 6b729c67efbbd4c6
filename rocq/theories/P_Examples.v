(* C94: the example applications of the repository, from the bytes of the client to the bytes of
   the answers. *)
From Verif Require Import M_Base M_Config M_Status M_Method M_Proto M_KeyValue M_Query M_Request M_Parser M_Client M_Body
  M_Response M_Serializer M_Suit M_Path M_Radix M_Router M_Static M_Bundled M_Tools M_Resource M_Escape M_ServeHttp1 M_Examples
  S_Static S_KeyValue S_Chunk S_Head S_Parser S_Body S_Response S_Conn S_Split S_Routes S_Router S_Serve S_ServeHttp1 S_Examples
  L_Base L_Radix L_Router5 L_Serve L_Chunk L_Conn3 L_ConnProps L_Tools L_ToolsEx L_Examples L_Examples2.

(* C94: helloworld: whatever requests a client sends, one behind the other, in whatever pieces
   they arrive, it gets the text written down in S_Examples for each, in order, up to the first
   request after which the connection closes.  TRACE is left to C39. *)
Theorem C94_helloworld : forall CS cparse encoded fresh inside new_chunked, DecoderOk CS cparse encoded fresh inside -> (forall n, fresh (new_chunked n)) ->
  let c := app_config [] in
  forall defs, default_headers c = Some defs ->
  forall x, Running helloworld x ->
  forall reqs tail enc cl w, Forall (GoodRequest encoded (limits_of c) (body_max_size c)) reqs -> Unfinished (limits_of c) tail ->
  (forall q, In q reqs -> h_method (q_head q) <> TRACE) -> writes_ok cl -> stream cl = concat (map wire reqs) ++ tail ->
  exists n, forall fuel, (n <= fuel)%nat -> exists st,
    http1 cparse new_chunked (on_request x) (on_error x) c defs enc fuel cl w = (if all_open reqs then EndRead else EndWrite, st) /\
    cl_out (k_client st) = cl_out cl ++ map (fun q => answer_of helloworld_answers (q_head q)) (answered reqs) /\ k_world st = w.
Proof.
  intros CS cparse encoded fresh inside new_chunked D F c defs Hd x HR reqs tail enc cl w HG HU HT Hw Hst. assert (defs = std_defs) as -> by (injection Hd as <-; reflexivity).
  destruct (served CS cparse encoded fresh inside new_chunked D F office helloworld x _ _ HR hello_plain (hello_ordinary _) hello_silent reqs tail enc cl w
    (static_routable _ _ _ hello_static) HG HU (fun q H => hello_site q (HT q H)) Hw Hst) as (n & outs & H1 & H2).
  apply replies_map in H1. exists n. intros fuel Hf. destruct (H2 fuel Hf) as (st & E1 & E2 & E3). exists st. split; [exact E1|]. rewrite E2, H1. split; [reflexivity|exact (chain_same _ _ _ E3)].
Qed.
Print Assumptions C94_helloworld.
(* C94: the same for the application without a router *)
Theorem C94_norouter : forall CS cparse encoded fresh inside new_chunked, DecoderOk CS cparse encoded fresh inside -> (forall n, fresh (new_chunked n)) ->
  let c := app_config [] in
  forall defs, default_headers c = Some defs ->
  forall reqs tail enc cl w, Forall (GoodRequest encoded (limits_of c) (body_max_size c)) reqs -> Unfinished (limits_of c) tail ->
  writes_ok cl -> stream cl = concat (map wire reqs) ++ tail ->
  exists n, forall fuel, (n <= fuel)%nat -> exists st,
    http1 cparse new_chunked (simple_request norouter_handler) (simple_error norouter_errors) c defs enc fuel cl w = (if all_open reqs then EndRead else EndWrite, st) /\
    cl_out (k_client st) = cl_out cl ++ map (fun q => answer_of norouter_answers (q_head q)) (answered reqs) /\ k_world st = w.
Proof.
  intros CS cparse encoded fresh inside new_chunked D F c defs Hd reqs tail enc cl w HG HU Hw Hst. assert (defs = std_defs) as -> by (injection Hd as <-; reflexivity).
  destruct (simple_requests CS cparse encoded fresh inside D (body_max_size c) eq_refl (header_cfg c) (url_maximal c) (keyspace_maximal c) (valspace_maximal c) (response_buff c) std_defs std_distinct office norouter_handler norouter_errors
    reqs [] (http1_conn new_chunked c std_defs enc cl w) tail) as (n & outs & closed & st1 & H1 & H2 & H3); try assumption.
  - intros q w0 r _ _. apply Ta_ret. intros f H. injection H as <-. apply Sd_plain. reflexivity.
  - apply new_between; [apply F|exact Hw].
  - destruct (norouter_conversation _ _ _ _ _ _ H1) as (I1 & I2 & I3); [intros d _; reflexivity|]. exists n. intros fuel Hf. unfold http1. rewrite (H3 fuel Hf).
    unfold close_with, simple_error. cbn [run_handler norouter_errors]. eexists. split.
    { f_equal. destruct closed as [l|]; [destruct (all_open reqs); [discriminate (proj2 I3 eq_refl)|reflexivity]|rewrite (proj1 I3 eq_refl); reflexivity]. }
    cbn [k_client k_world]. rewrite <- I1. split; [exact H2|exact I2].
Qed.
Print Assumptions C94_norouter.
(* C94: dynroute *)
Theorem C94_dynroute : forall CS cparse encoded fresh inside new_chunked, DecoderOk CS cparse encoded fresh inside -> (forall n, fresh (new_chunked n)) ->
  let c := app_config [] in
  forall defs, default_headers c = Some defs ->
  forall x, Running dynroute x ->
  forall reqs tail enc cl w, Forall (GoodRequest encoded (limits_of c) (body_max_size c)) reqs -> Unfinished (limits_of c) tail ->
  (forall q, In q reqs -> h_method (q_head q) <> TRACE) -> writes_ok cl -> stream cl = concat (map wire reqs) ++ tail ->
  exists n outs, Forall2 (fun q out => let h := q_head q in DynrouteAnswer (h_proto h) (h_method h) (h_decoded h) out) (answered reqs) outs /\
    forall fuel, (n <= fuel)%nat -> exists st,
    http1 cparse new_chunked (on_request x) (on_error x) c defs enc fuel cl w = (if all_open reqs then EndRead else EndWrite, st) /\
    cl_out (k_client st) = cl_out cl ++ outs /\ k_world st = w.
Proof.
  intros CS cparse encoded fresh inside new_chunked D F c defs Hd x HR reqs tail enc cl w HG HU HT Hw Hst. assert (defs = std_defs) as -> by (injection Hd as <-; reflexivity).
  destruct (served CS cparse encoded fresh inside new_chunked D F office dynroute x _ _ HR dyn_plain (dyn_ordinary _) dyn_silent reqs tail enc cl w
    (dyn_routable reqs (fun q H => good_path _ _ _ q (proj1 (Forall_forall _ _) HG q H))) HG HU (fun q H => dyn_site q (HT q H)) Hw Hst) as (n & outs & H1 & H2).
  exists n, outs. split.
  - clear -H1. revert H1. generalize (answered reqs). intros l H1. induction H1 as [|q out l outs (f & H1 & ->) H IH]; constructor; assumption.
  - intros fuel Hf. destruct (H2 fuel Hf) as (st & E1 & E2 & E3). exists st. split; [exact E1|]. split; [exact E2|exact (chain_same _ _ _ E3)].
Qed.
Print Assumptions C94_dynroute.
(* C94: there is exactly one such answer to a request *)
Theorem C94_dynroute_one : forall p m path a b, DynrouteAnswer p m path a -> DynrouteAnswer p m path b -> a = b.
Proof. exact dynroute_one. Qed.
Print Assumptions C94_dynroute_one.
(* C94: middlewares, with what it logs *)
Theorem C94_middlewares : forall CS cparse encoded fresh inside new_chunked, DecoderOk CS cparse encoded fresh inside -> (forall n, fresh (new_chunked n)) ->
  let c := app_config [] in
  forall defs, default_headers c = Some defs ->
  forall x, Running middlewares x ->
  forall reqs tail enc cl w, Forall (GoodRequest encoded (limits_of c) (body_max_size c)) reqs -> Unfinished (limits_of c) tail ->
  (forall q, In q reqs -> h_method (q_head q) <> TRACE) -> writes_ok cl -> stream cl = concat (map wire reqs) ++ tail ->
  exists n, forall fuel, (n <= fuel)%nat -> exists st,
    http1 cparse new_chunked (on_request x) (on_error x) c defs enc fuel cl w = (if all_open reqs then EndRead else EndWrite, st) /\
    cl_out (k_client st) = cl_out cl ++ map (fun q => answer_of middlewares_answers (q_head q)) (answered reqs) /\
    of_log (fst (k_world st)) = of_log (fst w) ++ concat (map (fun q => middlewares_log (h_method (q_head q)) (h_decoded (q_head q))) (answered reqs)).
Proof.
  intros CS cparse encoded fresh inside new_chunked D F c defs Hd x HR reqs tail enc cl w HG HU HT Hw Hst. assert (defs = std_defs) as -> by (injection Hd as <-; reflexivity).
  destruct (served CS cparse encoded fresh inside new_chunked D F office middlewares x _ _ HR mid_plain (mid_ordinary _) mid_silent reqs tail enc cl w
    (static_routable _ _ _ mid_static) HG HU (fun q H => mid_site q (HT q H)) Hw Hst) as (n & outs & H1 & H2).
  apply replies_map in H1. exists n. intros fuel Hf. destruct (H2 fuel Hf) as (st & E1 & E2 & E3). exists st. split; [exact E1|]. rewrite E2, H1. split; [reflexivity|].
  rewrite (chain_logs _ _ _ _ E3). reflexivity.
Qed.
Print Assumptions C94_middlewares.
(* C94: combined, except for the requests answered with files: the answers, the log, and whether
   the application is asked to stop.  Missing: the requests about files (C36, C37). *)
Theorem C94_combined_partial : forall CS cparse encoded fresh inside new_chunked, DecoderOk CS cparse encoded fresh inside -> (forall n, fresh (new_chunked n)) ->
  let c := app_config [] in
  forall defs, default_headers c = Some defs ->
  forall files body_error, (forall p, Sendable (response_buff c) (files p)) -> forall os, combined files body_error = Some os ->
  forall x, Running os x ->
  forall reqs tail enc cl w, Forall (GoodRequest encoded (limits_of c) (body_max_size c)) reqs -> Unfinished (limits_of c) tail ->
  (forall q, In q reqs -> h_method (q_head q) <> TRACE /\ ~ AboutFiles (h_decoded (q_head q))) -> writes_ok cl -> stream cl = concat (map wire reqs) ++ tail ->
  exists n, forall fuel, (n <= fuel)%nat -> exists st,
    http1 cparse new_chunked (on_request x) (on_error x) c defs enc fuel cl w = (if all_open reqs then EndRead else EndWrite, st) /\
    cl_out (k_client st) = cl_out cl ++ map (fun q => answer_of combined_answers (q_head q)) (answered reqs) /\
    of_log (fst (k_world st)) = of_log (fst w) ++ map (fun q => let h := q_head q in combined_log (h_method h) (h_decoded h) (field_pairs (h_lines h))) (answered reqs) /\
    of_stopped (fst (k_world st)) = of_stopped (fst w) || existsb (fun q => beqb (normalize (h_decoded (q_head q))) (B "/shutdown") && method_eqb (h_method (q_head q)) POST) (answered reqs).
Proof.
  intros CS cparse encoded fresh inside new_chunked D F c defs Hd files body_error HS os Hos x HR reqs tail enc cl w HG HU HT Hw Hst. assert (defs = std_defs) as -> by (injection Hd as <-; reflexivity).
  rewrite combined_starts in Hos. injection Hos as <-.
  destruct (served CS cparse encoded fresh inside new_chunked D F office (combined_ops files body_error) x _ _ HR (com_plain _ _) (com_ordinary _ _ _ HS) (com_silent _ _) reqs tail enc cl w
    (static_routable _ _ _ (com_static _ _)) HG HU (fun q H => com_site files body_error q (proj1 (HT q H)) (proj2 (HT q H))) Hw Hst) as (n & outs & H1 & H2).
  apply replies_map in H1. exists n. intros fuel Hf. destruct (H2 fuel Hf) as (st & E1 & E2 & E3). exists st. split; [exact E1|]. rewrite E2, H1. split; [reflexivity|].
  rewrite (chain_rings _ _ _ E3). split; reflexivity.
Qed.
Print Assumptions C94_combined_partial.
(* C94: connhijack: everything the client sends behind its request for "/" ends up in the log, in
   order, as long as the reads of the handler go, and nothing is written *)
Theorem C94_connhijack : forall CS cparse encoded fresh inside new_chunked, DecoderOk CS cparse encoded fresh inside -> (forall n, fresh (new_chunked n)) ->
  let c := app_config [] in
  forall defs reads x, Running (connhijack reads) x ->
  forall q rest enc cl w, GoodRequest encoded (limits_of c) (body_max_size c) q ->
  h_decoded (q_head q) = B "/" -> h_method (q_head q) = GET \/ h_method (q_head q) = HEAD ->
  writes_ok cl -> stream cl = wire q ++ rest ->
  exists n said, (List.length said <= reads)%nat /\ (exists unread, rest = concat said ++ unread /\ ((List.length said < reads)%nat -> unread = [])) /\
    forall fuel, (n <= fuel)%nat -> exists st,
    http1 cparse new_chunked (on_request x) (on_error x) c defs enc fuel cl w = (EndHijack, st) /\ cl_out (k_client st) = cl_out cl /\
    of_log (fst (k_world st)) = of_log (fst w) ++ map (app (B "somebody says: ")) said.
Proof.
  intros CS cparse encoded fresh inside new_chunked D F c defs reads x HR q rest enc cl w HG HP HM Hw Hst.
  destruct (hijacked CS cparse encoded fresh inside D (body_max_size c) eq_refl (header_cfg c) (url_maximal c) (keyspace_maximal c) (valspace_maximal c) (response_buff c) defs (world office) (on_request x) (on_error x) []
    (http1_conn new_chunked c defs enc cl w) q rest (fun err => match err with Some _ => HRet (Some new_response) w | None => hear reads w end))
    as (n & r & b & c1 & H1 & H2 & H3 & H4).
  - apply new_between; [apply F|exact Hw].
  - exact HG.
  - exact Hst.
  - intros r HS. exact (hijack_takes reads x q w r HR HP HM HS).
  - destruct (hear_run CS cparse (body_max_size c) reads w r b c1) as (c2 & R1 & R2 & R3).
    destruct (take_reads reads c1) as [[ds ok] c3] eqn:E. unfold spoken in R1. rewrite E in R1. cbn [fst snd] in R1. exists n, ds.
    destruct (take_reads_length _ _ _ _ _ E) as [L1 L2]. split; [exact L1|]. split.
    + exists (if ok then stream c3 else []). rewrite <- H1. split; [exact (reads_stream _ _ _ _ _ E)|]. intros L. destruct ok; [|reflexivity]. assert (L3 : @List.length bytes ds = reads) by exact (L2 eq_refl). change (@List.length bytes ds < reads)%nat in L. lia.
    + intros fuel Hf. destruct (H4 _ _ _ _ _ R1 H3 fuel Hf) as (st & S1 & S2 & S3). exists st. split; [exact S1|]. rewrite S2, R2, H2, S3. split; reflexivity.
Qed.
Print Assumptions C94_connhijack.
(* C94: false: combined registers a handler for POST "/" that logs what is said, but no request
   ever reaches it: the alias of "/" takes every method to the file index.html *)
Theorem C94_index_refuted : forall files body_error os, combined files body_error = Some os ->
  In (B "/", POST, behind [log_requests [log_println]] (index_say body_error)) (registered os) /\
  forall r h r1, r_path r = B "/" -> Dispatch os r h r1 -> In (B "/static", h) (caught os) /\ r_path r1 = B "/static/index.html".
Proof.
  intros files body_error os H. rewrite combined_starts in H. injection H as <-. split; [rewrite com_registered; right; left; reflexivity|]. exact (com_root files body_error).
Qed.
Print Assumptions C94_index_refuted.
(* C94: false: the example says that its second middleware runs "before first one"; it runs
   after it *)
Theorem C94_order_refuted : exists x, Running middlewares x /\
  let st := snd (http1 ref_parse (fun _ => KSize 0 false) (on_request x) (on_error x) (app_config []) [] enc_plain 50
    (new_client [(crlf_lines [B "GET /api/v1/hello HTTP/1.1"; []], None)] []) (Office [] (PBuf [] 0) false, [])) in
  firstn 2 (of_log (fst (k_world st))) = [B "running middleware before handler"; B "running second middleware before first one"].
Proof. eexists. split; [apply start_running; vm_compute; reflexivity|]. vm_compute. reflexivity. Qed.
Print Assumptions C94_order_refuted.

(* a client with five requests for helloworld, in two pieces, and what it gets *)
Example C94_case : exists x, Running helloworld x /\ default_headers (app_config []) = Some std_defs /\
  let net := [(crlf_lines [B "GET / HTTP/1.1"; B "Host: a"; []] ++ crlf_lines [B "HEAD / HTTP/1.1"; []] ++ B "POST / HT", None);
              (B "TP/1.1" ++ CRLF ++ CRLF ++ crlf_lines [B "GET /x HTTP/1.1"; B "Connection: close"; []] ++ crlf_lines [B "GET / HTTP/1.1"; []], None)] in
  let run := http1 ref_parse (fun _ => KSize 0 false) (on_request x) (on_error x) (app_config []) std_defs enc_plain 50 (new_client net []) (Office [] (PBuf [] 0) false, []) in
  fst run = EndWrite /\
  cl_out (k_client (snd run)) =
    [crlf_lines [B "HTTP/1.1 200 OK"; B "Hello: world"; B "Accept-Encodings: identity"; B "Content-Type: text/html"; B "Content-Length: 22"; []] ++ B "<h1>Hello, world!</h1>";
     crlf_lines [B "HTTP/1.1 200 OK"; B "Hello: world"; B "Accept-Encodings: identity"; B "Content-Type: text/html"; B "Content-Length: 22"; []];
     crlf_lines [B "HTTP/1.1 405 Method Not Allowed"; B "Allow: GET"; B "Accept-Encodings: identity"; B "Content-Type: text/html"; B "Content-Length: 0"; []];
     crlf_lines [B "HTTP/1.1 404 Not Found"; B "Accept-Encodings: identity"; B "Content-Type: text/html"; B "Content-Length: 0"; []]] /\
  cl_out (k_client (snd run)) =
    [helloworld_answers HTTP11 GET (B "/") []; helloworld_answers HTTP11 HEAD (B "/") []; helloworld_answers HTTP11 POST (B "/") []; helloworld_answers HTTP11 GET (B "/x") []].
Proof. eexists. split; [apply start_running; vm_compute; reflexivity|]. split; [reflexivity|]. cbv zeta. split; [|split]; vm_compute; reflexivity. Qed.
(* the other applications start, and answer *)
Definition one_answer (x : runtime office) (text : list bytes) : list bytes * list bytes :=
  let st := snd (http1 ref_parse (fun _ => KSize 0 false) (on_request x) (on_error x) (app_config []) std_defs enc_plain 50 (new_client [(crlf_lines text, None)] []) (Office [] (PBuf [] 0) false, [])) in
  (cl_out (k_client st), of_log (fst (k_world st))).
Example C94_case_dynroute : exists x, Running dynroute x /\
  one_answer x [B "GET /hello/moon// HTTP/1.0"; []] = ([page HTTP10 GET (B "200 OK") [] (B "your world-name is moon")], []) /\
  one_answer x [B "PUT / HTTP/1.0"; []] = ([page HTTP10 PUT (B "405 Method Not Allowed") [B "Allow: "] []], []).
Proof. eexists. split; [apply start_running; vm_compute; reflexivity|]. split; vm_compute; reflexivity. Qed.
Example C94_case_combined : exists os x, combined (fun p => set_rbody p new_response) (fun _ => []) = Some os /\ Running os x /\
  one_answer x [B "GET /hello/easter HTTP/1.1"; B "Easter: 1"; []] =
    ([page HTTP11 GET (B "418 I'm a teapot") [B "Easter: Egg"] (B "You have discovered an easter egg! Congratulations!")], [B "GET /hello/easter 418"]) /\
  one_answer x [B "POST / HTTP/1.1"; B "Talking: allowed"; []] = ([page HTTP11 POST (B "200 OK") [] (B "examples/combined/static/index.html")], [B "POST /static/index.html 200"]).
Proof.
  set (os := combined_ops (fun p => set_rbody p new_response) (fun _ => [])). exists os.
  assert (E : match start _ os with
    | Some x => Some (one_answer x [B "GET /hello/easter HTTP/1.1"; B "Easter: 1"; []], one_answer x [B "POST / HTTP/1.1"; B "Talking: allowed"; []])
    | None => None end = Some (([page HTTP11 GET (B "418 I'm a teapot") [B "Easter: Egg"] (B "You have discovered an easter egg! Congratulations!")], [B "GET /hello/easter 418"]),
       ([page HTTP11 POST (B "200 OK") [] (B "examples/combined/static/index.html")], [B "POST /static/index.html 200"]))) by (vm_compute; reflexivity).
  destruct (start _ os) as [x|] eqn:Ex; [|discriminate E]. exists x. split; [apply combined_starts|]. split; [apply start_running; exact Ex|].
  apply (f_equal (fun o => match o with Some p => p | None => (([], []), ([], [])) end)) in E. cbn iota in E. split; [exact (f_equal fst E)|exact (f_equal snd E)].
Qed.
Example C94_case_hijack : exists x, Running (connhijack 5) x /\
  one_answer x [B "GET / HTTP/1.1"; []; B "psst"] = ([], [B "somebody says: " ++ crlf_lines [B "psst"]]).
Proof. eexists. split; [apply start_running; vm_compute; reflexivity|]. vm_compute; reflexivity. Qed.
