(* Properties C46 (more), C85, C86, C87: from a configuration to a connection; rounds; the tests' client. *)
From Verif Require Import M_Base M_Config M_Status M_Method M_Proto M_KeyValue M_Query M_Request M_Parser M_Client M_Body
  M_Response M_Serializer M_Suit M_Path M_Radix M_Router M_ServeHttp1 M_Dummy S_KeyValue S_Chunk S_Head S_Parser S_Body S_Response S_Conn S_Split S_Routes S_Router S_Serve S_Verdict S_Values S_ServeHttp1
  L_Values L_ServeHttp1 L_Conn3 L_Chunk L_RouterEx L_ServeEx L_Router5 L_Serve L_VerdictConn L_ConnProps P_Parser.

(* ---------------------------------------------------------------- C46 *)
(* C46: without negative settings, everything an application runs with is positive, however
   often it is tuned.  CookiesPreAllocate: C46_refuted *)
Theorem C46_positive : forall tunes s, s <> SCookiesPreAllocate -> (forall src, In src tunes -> (0 <= get_setting s src)%Z) -> (0 < get_setting s (app_config tunes))%Z.
Proof. exact app_config_positive. Qed.
Print Assumptions C46_positive.
(* C46: the last Tune counts, and replaces the settings of the earlier ones *)
Theorem C46_last : forall tunes src, app_config (tunes ++ [src]) = fill src.
Proof. exact app_config_last. Qed.
Print Assumptions C46_last.
(* C46: false: Body.MaxSize = 0 is documented to refuse all bodies (config.go:73-75), but Tune
   takes it for unset: bodies up to 512 MB are accepted; no configuration refuses all bodies *)
Theorem C46_zero_body_refuted : exists src, body_max_size src = 0%Z /\ body_max_size (app_config [src]) = 536870912%Z /\
  forall tunes, body_max_size (app_config tunes) <> 0%Z.
Proof.
  exists (Config 0 0 0 0 0 0 0 0 0 0 0 0 None 0 0 0 0 0 0 0 0). split; [reflexivity|]. split; [reflexivity|]. intros tunes.
  destruct tunes as [|src tunes _] using rev_ind; [discriminate|]. rewrite app_config_last. cbn. unfold num_or. destruct (body_max_size src =? 0)%Z eqn:E; [discriminate|]. apply Z.eqb_neq. exact E.
Qed.
Print Assumptions C46_zero_body_refuted.
(* C46: false: a maximum set below the default size leaves a buffer that starts bigger than it
   may ever be *)
Theorem C46_shrunk_refuted : exists src, url_maximal (app_config [src]) = 1000%Z /\ url_default (app_config [src]) = 2048%Z.
Proof. exists (Config 0 1000 0 0 0 0 0 0 0 0 0 0 None 0 0 0 0 0 0 0 0). split; reflexivity. Qed.
Print Assumptions C46_shrunk_refuted.

(* ---------------------------------------------------------------- C85 *)
(* C85: a server of an application tuned as you like does what C72 and C82 say, with the limits
   of its configuration: URL.BufferSize.Maximal, Headers.Number.Maximal, KeySpace.Maximal,
   ValueSpace.Maximal, MaxValueLength, MaxEncodingTokens, Body.MaxSize; its default headers are
   Headers.Default in some order.  Missing: the guards of C72 and C82, and the other settings
   (below). *)
Theorem C85_tuned_partial : forall CS cparse encoded fresh inside new_chunked, DecoderOk CS cparse encoded fresh inside -> (forall n, fresh (new_chunked n)) ->
  forall tunes c, c = app_config tunes -> (body_max_size c < two64)%Z ->
  forall defs, Permutation.Permutation defs (match default_headers c with Some m => m | None => [] end) -> distinct_names defs ->
  forall W (os : list (list nat * rop W)) x, Running os x -> PlainAliases os -> OrdinaryApp (response_buff c) os -> NoErrorHandlers os -> uses os [] = [] ->
  forall reqs tail v enc cl w, Routable os reqs -> Forall (GoodRequest encoded (limits_of c) (body_max_size c)) reqs ->
  NamedHead tail -> (len (start_part tail) <= url_maximal c)%Z -> HeadSays (limits_of c) tail v ->
  writes_ok cl -> stream cl = concat (map wire reqs) ++ tail ->
  let run fuel := http1 cparse new_chunked (on_request x) (on_error x) c defs enc fuel cl w in
  exists n outs closed st1, Dialogue defs os reqs w [] outs (k_world st1) closed /\ cl_out (k_client st1) = cl_out cl ++ outs /\
    match closed with
    | Some _ => forall fuel, (n <= fuel)%nat -> run fuel = close_with cparse (body_max_size c) (on_error x) EndWrite st1
    | None =>
        match v with
        | VTaken _ _ => True
        | VMore => exists st2, cl_out (k_client st2) = cl_out (k_client st1) /\ k_world st2 = k_world st1 /\
            forall fuel, (n <= fuel)%nat -> run fuel = close_with cparse (body_max_size c) (on_error x) EndRead st2
        | VPanics => exists st2, cl_out (k_client st2) = cl_out (k_client st1) /\ k_world st2 = k_world st1 /\
            forall fuel, (n <= fuel)%nat -> run fuel = (EndPanic, st2)
        | VRefused named e => exists out st2 past',
            (forall fuel, (n <= fuel)%nat -> run fuel = (EndParse, st2)) /\
            k_world st2 = k_world st1 /\ cl_out (k_client st2) = cl_out (k_client st1) ++ [out] /\
            let p := or_default named (r_proto (p_req (k_parser st1))) in
            (p <> PUnknown -> out = response_text (version_of p) (itoa_N (he_code e)) (sent_reason (set_code (he_code e) new_response))
                                     (sent_fields defs past' (set_code (he_code e) new_response)) [])
        end
    end.
Proof.
  intros CS cparse encoded fresh inside new_chunked D F tunes c -> Hb defs _ Hd W os x R P O N U reqs tail v enc cl w Ro G Nm L V Wo S run.
  exact (verdict_after CS cparse encoded fresh inside D (body_max_size (app_config tunes)) Hb (header_cfg (app_config tunes)) _ _ _ (response_buff (app_config tunes)) defs Hd W os x R P O N U reqs []
    (http1_conn new_chunked (app_config tunes) defs enc cl w) tail v Ro (new_between CS (world W) fresh _ _ _ _ defs enc _ cl w (F _) Wo) G Nm L V S).
Qed.
Print Assumptions C85_tuned_partial.
(* C85: MaxKeyLength, DecodingBufferSize and FileBuffSize change nothing, whatever they
   are set to and whatever arrives *)
Theorem C85_unused : forall s', In s' [SMaxKeyLength; SDecodingBufferSize; SFileBuffSize] ->
  forall CS (cparse : CS -> bytes -> bool -> CS * (bytes * bytes * option cerr)) new_chunked W (on_request : W -> request -> hprog W) on_error c c' defs enc fuel cl w, DifferIn s' c c' ->
  http1 cparse new_chunked on_request on_error c defs enc fuel cl w = http1 cparse new_chunked on_request on_error c' defs enc fuel cl w.
Proof.
  intros s' Hs CS cparse nc W oq oe c c' defs enc fuel cl w [H _]. unfold http1, http1_conn, header_cfg.
  assert (E : url_maximal c = url_maximal c' /\ keyspace_maximal c = keyspace_maximal c' /\ valspace_maximal c = valspace_maximal c' /\ response_buff c = response_buff c' /\
    body_max_chunk c = body_max_chunk c' /\ body_max_size c = body_max_size c' /\ hnum_maximal c = hnum_maximal c' /\ max_value_length c = max_value_length c' /\ max_encoding_tokens c = max_encoding_tokens c').
  { destruct Hs as [<-|[<-|[<-|[]]]]; repeat split;
      [apply (H SUrlMaximal)|apply (H SKeySpaceMaximal)|apply (H SValueSpaceMaximal)|apply (H SResponseBuffSize)|apply (H SBodyMaxChunkSize)|apply (H SBodyMaxSize)|apply (H SHeadersMaximal)|apply (H SMaxValueLength)|apply (H SMaxEncodingTokens)
      |apply (H SUrlMaximal)|apply (H SKeySpaceMaximal)|apply (H SValueSpaceMaximal)|apply (H SResponseBuffSize)|apply (H SBodyMaxChunkSize)|apply (H SBodyMaxSize)|apply (H SHeadersMaximal)|apply (H SMaxValueLength)|apply (H SMaxEncodingTokens)
      |apply (H SUrlMaximal)|apply (H SKeySpaceMaximal)|apply (H SValueSpaceMaximal)|apply (H SResponseBuffSize)|apply (H SBodyMaxChunkSize)|apply (H SBodyMaxSize)|apply (H SHeadersMaximal)|apply (H SMaxValueLength)|apply (H SMaxEncodingTokens)]; discriminate. }
  destruct E as (-> & -> & -> & -> & -> & -> & -> & -> & ->). reflexivity.
Qed.
Print Assumptions C85_unused.
(* C85: false: with MaxKeyLength = 3 a header with a name of 4 bytes is still accepted, and files
   are read in pieces of ResponseBuffSize, 1 KiB by default, instead of FileBuffSize, 64 KiB *)
Theorem C85_key_refuted : exists src x, max_key_length (app_config [src]) = 3%Z /\ Running shop x /\
  cl_out (k_client (snd (http1 ref_parse (fun _ => KSize 0 false) (on_request x) (on_error x) (app_config [src]) [] enc_plain 50
    (new_client [(crlf_lines [B "GET /c HTTP/1.1"; B "Host: a"; []], None)] []) ([], [])))) =
  [crlf_lines [B "HTTP/1.1 200 OK"; B "Content-Type: text/html"; B "Content-Length: 0"; []]] /\
  file_buff default_config = 65536%Z /\ s_filesize (k_ser (http1_conn (fun _ => tt) default_config [] enc_plain (new_client [] []) tt)) = 1024%nat.
Proof.
  exists (Config 0 0 0 0 0 3 0 0 0 0 0 0 None 0 0 0 0 0 0 0 0). eexists. split; [reflexivity|]. split; [apply start_running; vm_compute; reflexivity|].
  split; [vm_compute; reflexivity|]. split; reflexivity.
Qed.
Print Assumptions C85_key_refuted.
Example C85_case : exists x, Running shop x /\ limits_of default_config = Limits 65535 50 4096 8192 8192 15 /\
  cl_out (k_client (snd (http1 ref_parse (fun _ => KSize 0 false) (on_request x) (on_error x) (app_config [Config 10 12 0 0 0 0 0 0 0 0 0 0 None 0 0 0 0 0 0 0 0]) [] enc_plain 50
    (new_client [(crlf_lines [B "GET /c?much_too_long HTTP/1.1"; B "Host: a"; []], None)] []) ([], [])))) =
  [crlf_lines [B "HTTP/1.1 414 Request URI Too Long"; B "Content-Type: text/html"; B "Content-Length: 0"; []]].
Proof. eexists. split; [apply start_running; vm_compute; reflexivity|]. split; [reflexivity|]. vm_compute. reflexivity. Qed.

(* ---------------------------------------------------------------- C87 *)
(* C87: calling ServeOnce until it says false is what Serve does: the same responses, state and
   way to end; and if it never says false, Serve does not end either *)
Theorem C87_rounds : forall CS W (cparse : CS -> bytes -> bool -> CS * (bytes * bytes * option cerr)) (on_request : W -> request -> hprog W) on_error max cfg n (st : conn CS W),
  (forall fin, rounds (serve_once cparse on_request on_error max cfg) n st = Some fin -> forall k, serve cparse max cfg on_request on_error (n + k) st = fin) /\
  (rounds (serve_once cparse on_request on_error max cfg) n st = None -> exists st', serve cparse max cfg on_request on_error n st = (EndStuck, st')).
Proof. exact serve_rounds. Qed.
Print Assumptions C87_rounds.
Example C87_case : exists x, Running shop x /\ let st := shop_conn [wire hello_req; wire hello_req] in
  exists fin, rounds (serve_once ref_parse (on_request x) (on_error x) 100 ex_cfg) 3 st = Some fin /\ fst fin = EndRead /\ List.length (cl_out (k_client (snd fin))) = 2%nat.
Proof. eexists. split; [apply start_running; vm_compute; reflexivity|]. cbv zeta. eexists. split; [vm_compute; reflexivity|]. split; vm_compute; reflexivity. Qed.

(* ---------------------------------------------------------------- C86 *)
(* C86: the client of the tests gives its pieces one after the other, and then again, for ever *)
Theorem C86_cycle : forall data n, data <> [] ->
  d_run (repeat None n) (new_circular data) = map (fun i => DData (nth (i mod List.length data) data [])) (seq 0 n).
Proof. intros data n N. apply cycle_from; [exact N|lia]. Qed.
Print Assumptions C86_cycle.
(* C86: and what was pushed back comes first, without disturbing the rest *)
Theorem C86_unread : forall data i d n, data <> [] -> (i <= List.length data)%nat -> d <> [] ->
  d_run (Some d :: repeat None (S n)) (Circular data [] i false false) = DData d :: d_run (repeat None n) (Circular data [] i false false).
Proof. intros data i d n N L Nd. destruct d as [|b d]; [contradiction|]. reflexivity. Qed.
Print Assumptions C86_unread.
(* C86: the writer of the tests keeps everything that was written, in order *)
Theorem C86_sink : forall parts, fold_left sink_write parts [] = concat parts.
Proof.
  assert (H : forall parts data, fold_left sink_write parts data = data ++ concat parts).
  { induction parts as [|p parts IH]; intros data; cbn [fold_left concat]; [symmetry; apply app_nil_r|]. rewrite IH. unfold sink_write. symmetry. apply app_assoc. }
  intros parts. apply H.
Qed.
Print Assumptions C86_sink.
(* C86: false: a OneTime client gives one piece only, whatever it was made from, and loses what
   is pushed back; and one made from nothing panics when it is read *)
Theorem C86_refuted : exists data, List.length data = 2%nat /\ d_run [None; None] (d_one_time (new_circular data)) = [DData (B "a"); DEof] /\
  d_run [None; Some (B "a"); None] (d_one_time (new_circular data)) = [DData (B "a"); DEof] /\ d_run [None] (new_circular []) = [DPanic].
Proof. exists [B "a"; B "b"]. repeat split; vm_compute; reflexivity. Qed.
Print Assumptions C86_refuted.
Example C86_case : d_run [None; None; None; Some (B "x"); None; None] (new_circular [B "a"; B "b"]) = map (fun s => DData s) [B "a"; B "b"; B "a"; B "x"; B "b"].
Proof. reflexivity. Qed.
