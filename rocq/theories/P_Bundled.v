(* Properties C64 - C66: the bundled middlewares; C44: what LogRequests writes. *)
From Verif Require Import M_Base M_Status M_Method M_Proto M_KeyValue M_Query M_Escape M_Request M_Parser M_Client M_Body
  M_Response M_Serializer M_Suit M_Router M_Middleware M_Bundled S_KeyValue S_Chunk S_Head S_Parser S_Body S_Static S_Virtual S_Response S_Router S_Conn S_Bundled S_Values
  L_Base L_KeyValue L_Values L_Body2 L_Response3 L_Conn2 L_ConnProps L_RouterEx L_Bundled P_Parser.

(* ------------------------------------------------------------------------------------ *)
(* C64: false as it stands: the query is lost *)
Theorem C64_refuted : exists text p extra,
  text = B "GET /a?x=1 HTTP/1.1" ++ CRLF ++ B "Host: h" ++ CRLF ++ CRLF /\
  feed ex_cfg (new_parser 100 60 60 new_request) [text] = (RDone p extra, []) /\
  env_encryption (r_env (p_req p)) = enc_plain /\ hosts_of (p_req p) = [B "h"] /\ asked (p_req p) = B "/a?x=1" /\
  forall W (next : handler W) w,
    https_only_mw [] (B "443") next w (p_req p) = HRet (Some (answer_with 301%N (B "Location") (B "https://h:443/a"))) w.
Proof.
  eexists. eexists. eexists. split; [reflexivity|]. split; [vm_compute; reflexivity|]. split; [vm_compute; reflexivity|].
  split; [vm_compute; reflexivity|]. split; [vm_compute; reflexivity|]. intros W next w. vm_compute. reflexivity.
Qed.
Print Assumptions C64_refuted.
(* C64: nor does it work for IPv6 addresses: the host is cut at the first colon *)
Theorem C64_ipv6_refuted : exists text p extra,
  text = B "GET /a HTTP/1.1" ++ CRLF ++ B "Host: [::1]:8080" ++ CRLF ++ CRLF /\
  feed ex_cfg (new_parser 100 60 60 new_request) [text] = (RDone p extra, []) /\
  env_encryption (r_env (p_req p)) = enc_plain /\ hosts_of (p_req p) = [B "[::1]:8080"] /\ asked (p_req p) = B "/a" /\
  forall W (next : handler W) w,
    https_only_mw [] (B "443") next w (p_req p) = HRet (Some (answer_with 301%N (B "Location") (B "https://[:443/a"))) w.
Proof.
  eexists. eexists. eexists. split; [reflexivity|]. split; [vm_compute; reflexivity|]. split; [vm_compute; reflexivity|].
  split; [vm_compute; reflexivity|]. split; [vm_compute; reflexivity|]. intros W next w. vm_compute. reflexivity.
Qed.
Print Assumptions C64_ipv6_refuted.
(* C64: all plain requests whose first Host is a name or a name and a port: 301 to the same
   path of this name.  Missing: the query and IPv6 addresses, see above. *)
Theorem C64_plain_partial : forall W port (next : handler W) w r h hs name,
  env_encryption (r_env r) = enc_plain -> hosts_of r = h :: hs -> NamesHost h name ->
  https_only_mw [] port next w r = HRet (Some (answer_with 301%N (B "Location") (B "https://" ++ name ++ B ":" ++ port ++ asked_path r))) w.
Proof. exact https_plain. Qed.
Print Assumptions C64_plain_partial.
(* C64: with RedirectTo the Host header does not matter.  (The query is missing again.) *)
Theorem C64_fixed_partial : forall W host port (next : handler W) w r, env_encryption (r_env r) = enc_plain -> host <> [] ->
  https_only_mw host port next w r = HRet (Some (answer_with 301%N (B "Location") (B "https://" ++ host ++ B ":" ++ port ++ asked_path r))) w.
Proof. exact https_fixed. Qed.
Print Assumptions C64_fixed_partial.
(* C64: without Host: 400 *)
Theorem C64_no_host : forall W port (next : handler W) w r, env_encryption (r_env r) = enc_plain -> hosts_of r = [] ->
  https_only_mw [] port next w r = HRet (Some (Fields 400%N [] (B "text/html") [] [] (B "no Host header") [] None)) w.
Proof. exact https_no_host. Qed.
Print Assumptions C64_no_host.
(* C64: requests over TLS go to the handler *)
Theorem C64_secure : forall W host port (next : handler W) w r, env_encryption (r_env r) <> enc_plain -> https_only_mw host port next w r = next w r.
Proof. exact https_secure. Qed.
Print Assumptions C64_secure.
Example C64_case : NamesHost (B "example.com:80") (B "example.com") /\ NamesHost (B "h") (B "h") /\ ~ NamesHost (B "[::1]") (B "[::1]").
Proof.
  split; [|split].
  - split; [discriminate|]. split; [vm_compute; intuition discriminate|]. right. exists (B "80"). reflexivity.
  - split; [discriminate|]. split; [vm_compute; intuition discriminate|]. left. reflexivity.
  - intros (_ & H & _). apply H. vm_compute. tauto.
Qed.

(* ------------------------------------------------------------------------------------ *)
(* C65: false as it stands: a handler may return nil, but not behind these two *)
Theorem C65_refuted : exists (h : handler log),
  fst (ex_run h [ex_stream]) = EndRead /\ h = (fun w _ => HRet None w) /\
  fst (ex_run (server_header [] h) [ex_stream]) = EndPanic /\ fst (ex_run (log_requests [] h) [ex_stream]) = EndPanic.
Proof. exists (fun w _ => HRet None w). vm_compute. repeat split; reflexivity. Qed.
Print Assumptions C65_refuted.
Theorem C65_nil : forall CS cparse max W custom loggers (next : handler W) w r (b : body CS) c w' r' b' c',
  run_handler cparse max (next w r) r b c = HDone None w' r' b' c' ->
  run_handler cparse max (server_header custom next w r) r b c = HPanic r' b' c' /\
  run_handler cparse max (log_requests loggers next w r) r b c = HPanic r' b' c'.
Proof. exact nil_crashes. Qed.
Print Assumptions C65_nil.
(* C65: ServerHeader adds one header to any response and changes nothing else.
   Missing: handlers that return nil. *)
Theorem C65_server_partial : forall CS cparse max W custom value text (next : handler W) w r (b : body CS) c f w' r' b' c',
  Spaced custom text -> value = (match text with [] => B "indigo" | _ => text end) ->
  run_handler cparse max (next w r) r b c = HDone (Some f) w' r' b' c' ->
  run_handler cparse max (server_header custom next w r) r b c = HDone (Some (with_header (B "Server") value f)) w' r' b' c'.
Proof. exact server_added. Qed.
Print Assumptions C65_server_partial.
(* C65: LogRequests tells every logger one line and returns the response as it is.
   Missing: handlers that return nil. *)
Theorem C65_log_partial : forall CS cparse max W loggers (next : handler W) w r (b : body CS) c f w' r' b' c',
  run_handler cparse max (next w r) r b c = HDone (Some f) w' r' b' c' -> f_code f <> 439%N ->
  run_handler cparse max (log_requests loggers next w r) r b c =
  HDone (Some f) (told_all loggers (method_string (r_method r') ++ B " " ++ escape (r_path r') ++ B " " ++ itoa_N (f_code f)) (fst w'), snd w') r' b' c'.
Proof. exact logged. Qed.
Print Assumptions C65_log_partial.
Theorem C65_log_close : forall CS cparse max W loggers (next : handler W) w r (b : body CS) c f w' r' b' c',
  run_handler cparse max (next w r) r b c = HDone (Some f) w' r' b' c' -> f_code f = 439%N ->
  run_handler cparse max (log_requests loggers next w r) r b c = HDone (Some f) w' r' b' c'.
Proof. exact logged_close. Qed.
Print Assumptions C65_log_close.
(* C65: a handler that panics or waits for ever does so behind them *)
Theorem C65_abort : forall CS cparse max W custom loggers (next : handler W) w r (b : body CS) c,
  (forall r' b' c', run_handler cparse max (next w r) r b c = HPanic r' b' c' ->
     run_handler cparse max (server_header custom next w r) r b c = HPanic r' b' c' /\
     run_handler cparse max (log_requests loggers next w r) r b c = HPanic r' b' c') /\
  (run_handler cparse max (next w r) r b c = HStuck ->
     run_handler cparse max (server_header custom next w r) r b c = HStuck /\ run_handler cparse max (log_requests loggers next w r) r b c = HStuck).
Proof. exact not_reached. Qed.
Print Assumptions C65_abort.
(* C65: CustomContext changes nothing but the context *)
Theorem C65_context : forall CS cparse max W ctx (next : handler W) w r (b : body CS) c,
  run_handler cparse max (custom_context ctx next w r) r b c = run_handler cparse max (next w (set_ctx ctx r)) (set_ctx ctx r) b c.
Proof. exact context_given. Qed.
Print Assumptions C65_context.
(* C65: Redirect answers for its path and for no other *)
Theorem C65_redirect : forall W from to (next : handler W) w r,
  (r_path r = from -> redirect from to next w r = HRet (Some (answer_with 307%N (B "Location") to)) w) /\
  (r_path r <> from -> redirect from to next w r = next w r).
Proof. intros. split; [apply redirected|apply not_redirected]. Qed.
Print Assumptions C65_redirect.
(* C65: connections are served as before: what holds for a handler that gives a response (for C07)
   holds behind these middlewares *)
Theorem C65_tame : forall W fbs panics custom loggers (next : handler W), (forall w r, Tame (Given fbs) panics (next w r)) ->
  (forall w r, Tame (Given fbs) panics (server_header custom next w r)) /\ (forall w r, Tame (Given fbs) panics (log_requests loggers next w r)).
Proof. exact bundled_tame. Qed.
Print Assumptions C65_tame.
Example C65_case : Spaced [B "indigo"; B "1.0"] (B "indigo 1.0") /\ Spaced [] [] /\
  told_all [fun l w => w ++ [l]; fun l w => w ++ [B "2: " ++ l]] (B "GET / 200") [] = [B "GET / 200"; B "2: GET / 200"].
Proof. split; [|split; [constructor|reflexivity]]. change (B "indigo 1.0") with (B "indigo" ++ B " " ++ B "1.0"). constructor. constructor. Qed.

(* C44: a line LogRequests writes has printable bytes and continuation bytes only, whatever the path.
   Missing for the full C44: see C44_refuted. *)
Theorem C44_log_partial : forall r c x, In x (log_line r c) -> printable x \/ utf8_tail x.
Proof. exact log_line_bytes. Qed.
Print Assumptions C44_log_partial.

(* ------------------------------------------------------------------------------------ *)
(* C66: Recover gives the response of the handlers behind it; if they panic, 500, with the request,
   the body and the connection as they were when it happened *)
Theorem C66_recover : forall CS cparse max W (next : handler W) w r (b : body CS) c,
  run_handler cparse max (recovering next w r) r b c =
  match run_handler cparse max (next w r) r b c with
  | HDone resp w' r' b' c' => HDone resp w' r' b' c'
  | HPanic r' b' c' => HDone (Some internal_error) w r' b' c'
  | HStuck => HStuck
  end.
Proof. exact recovered. Qed.
Print Assumptions C66_recover.
(* C66: no middleware or handler behind it can make the connection panic *)
Theorem C66_never_panics : forall CS cparse max W ms (h : handler W) w r (b : body CS) c r' b' c',
  run_handler cparse max (behind (recovering :: ms) h w r) r b c <> HPanic r' b' c'.
Proof. exact never_panics. Qed.
Print Assumptions C66_never_panics.
(* C66: what is left is a panic while the response is written *)
Theorem C66_only_writing : forall CS cparse max W (h : handler W) ms (on_error : world W -> request -> http_error -> hprog (world W)) (st : conn CS (world W)) extra st',
  (forall w r e r0 (b : body CS) c r' b' c', run_handler cparse max (on_error w r e) r0 b c <> HPanic r' b' c') ->
  on_head cparse max (behind (recovering :: ms) h) on_error st extra = inl (EndPanic, st') ->
  exists version r f s c, fst (fst (fst (write_response version r f s c))) = WPanic.
Proof. exact head_no_panic. Qed.
Print Assumptions C66_only_writing.
(* C66: in front of it, middlewares are on their own *)
Theorem C66_in_front : forall CS cparse max W ms (h : handler W) w r (b : body CS) c r' b' c',
  run_handler cparse max (behind ms h w r) r b c = HDone None w r' b' c' ->
  run_handler cparse max (behind (log_requests [] :: recovering :: ms) h w r) r b c = HPanic r' b' c'.
Proof. exact crash_not_recovered. Qed.
Print Assumptions C66_in_front.
(* C66: for whole connections: behind Recover, handlers that may panic are ordinary ones, so C07_conversation
   holds with them: after a panic the next requests are served *)
Theorem C66_ordinary : forall W fbs (next : handler W), (forall w r, Tame (CanBeSent fbs) true (next w r)) -> forall w r, Ordinary fbs (recovering next w r).
Proof. exact recovering_ordinary. Qed.
Print Assumptions C66_ordinary.
(* the first of three requests panics: without Recover that is the end *)
Example C66_case :
  (forall w r, Tame (CanBeSent 64) true (ex_fragile w r)) /\
  fst (ex_run ex_fragile [ex_stream]) = EndPanic /\
  fst (ex_run (recovering ex_fragile) [ex_stream]) = EndRead /\
  cl_out (k_client (snd (ex_run (recovering ex_fragile) [ex_stream]))) =
    [B "HTTP/1.1 500 Internal Server Error" ++ CRLF ++ B "Content-Type: text/html" ++ CRLF ++ B "Content-Length: 0" ++ CRLF ++ CRLF;
     ok_text (B "HTTP/1.1") []; ok_text (B "HTTP/1.1") (B "abc")] /\
  fst (k_world (snd (ex_run (recovering ex_fragile) [ex_stream]))) = [(B "/b", []); (B "/c", B "abc"); (B "error", B "/c")].
Proof.
  split; [|vm_compute; repeat split; reflexivity].
  intros w r. apply Ta_body. intros o. destruct (beqb (r_path r) (B "/a")); [apply Ta_crash|]. apply Ta_ret. intros f Hf. injection Hf as <-. apply Sd_plain. reflexivity.
Qed.
