(* Property C105 for applications whose handlers may take over the connection. *)
From Verif Require Import M_Base M_Status M_Method M_Proto M_KeyValue M_Query M_Request M_Parser M_Client M_Body
  M_Response M_Serializer M_Suit M_Path M_Radix M_Router M_Middleware M_Bundled S_Static S_KeyValue S_Chunk S_Head S_Parser S_Body S_Response S_Split S_Verdict S_Arrive S_Conn S_Unversioned S_Routes S_Router S_Serve S_Upgrade S_Talk
  S_Mutators S_Mutated S_MutTalk S_Guarded S_Takeover S_Takeover2 S_TakeTalk
  L_Base L_Chunk L_ConnProps L_Router5 L_ServeEx L_Mutators L_TakeTalk P_Parser P_Takeover.

(* C105: whatever bytes a client sends, in whatever reads, and whoever of the handlers takes over the
   connection, at whatever point: until then the requests in the bytes are answered one after the
   other; the one that takes over has been shown its own request, finds what stands behind it on
   the connection, and nothing else is ever sent but what it writes.  If nobody takes over, what is
   left is no request, and the connection goes on or ends as in C105_partial.
   Missing: what becomes of a request the body of which does not come (there, C105_partial, C106 and
   C107 are for handlers that leave the connection alone) *)
Theorem C105_takeover_partial : forall CS cparse encoded fresh inside,
  DecoderOk CS cparse encoded fresh inside -> forall max, (0 <= max < two64)%Z -> Decided encoded max ->
  forall cfg umax kmax vmax fbs defs, (0 <= umax)%Z -> distinct_names defs ->
  forall W (os : list (list nat * rop W)) x mus, Running os x -> InOrder os [] mus -> HarmlessMutators os -> WillingApp fbs (settled os) -> AlwaysRoutable os mus ->
  forall past ups (st : conn CS (world W)), Amid umax kmax vmax fbs defs fresh past ups st ->
  let lim := cfg_limits cfg umax kmax vmax in
  let serve := serve cparse max cfg (on_request x) (on_error x) in
  let close_with := close_with cparse max (on_error x) in
  (exists n st1, SeizedAmid encoded max lim defs (MutRouted os mus) (TakingRoute os mus) past ups st st1 /\
     forall fuel, (n <= fuel)%nat -> serve fuel st = (EndHijack, st1)) \/
  exists n outs left st1,
    Talk encoded max lim defs (MutRouted os mus) (reads_of (k_client st)) (k_world st) past ups outs (k_world st1) left /\
    cl_out (k_client st1) = cl_out (k_client st) ++ outs /\
    match left with
    | None => forall fuel, (n <= fuel)%nat -> serve fuel st = close_with EndWrite st1
    | Some (reads, past1, ups1) => reads = reads_of (k_client st1) /\ Stops encoded max lim reads /\
        forall v, HeadHeard lim reads v ->
        match v with
        | VTaken h rest => forall fuel, serve (n + fuel)%nat st = serve fuel st1
        | VMore => exists m st2, cl_out (k_client st2) = cl_out (k_client st1) /\ k_world st2 = k_world st1 /\
            forall fuel, (m <= fuel)%nat -> serve fuel st = close_with EndRead st2
        | VPanics => exists m st2, cl_out (k_client st2) = cl_out (k_client st1) /\ k_world st2 = k_world st1 /\
            forall fuel, (m <= fuel)%nat -> serve fuel st = (EndPanic, st2)
        | VRefused named e => exists q r1, r_proto q = or_default named (r_proto (p_req (k_parser st1))) /\ r1 = set_error (EHttp e) (one_by_one mus q) /\
            (Detached (error_choice os (he_code e) (k_world st1) r1) -> exists resp w' r' out m st2,
               detached_result (error_choice os (he_code e) (k_world st1) r1) r1 = Some (resp, w', r') /\
               (forall fuel, (m <= fuel)%nat -> serve fuel st = (EndParse, st2)) /\
               k_world st2 = w' /\ cl_out (k_client st2) = cl_out (k_client st1) ++ [out] /\
               SentIn defs past1 (r_proto r') r' (not_nil resp) [out])
        end
    end.
Proof. exact mut_free_talk. Qed.
Print Assumptions C105_takeover_partial.

(* a request with a line feed in a name, one that takes over, then bytes that are no request at all *)
Example C105_takeover_case : exists x, Running ex_chat x /\ AlwaysRoutable ex_chat (x_mutators x) /\ WillingApp 64 (settled ex_chat) /\ HarmlessMutators ex_chat /\
  let res := shop_serve x [B "GET /c HTTP/1.1" ++ CRLF ++ B "X" ++ LF :: B "Y: z" ++ CRLF ++ CRLF ++ wire chat_req ++ B "any "; LF :: B "GET"] in
  fst res = EndHijack /\ cl_out (k_client (snd res)) = [ok_text (B "HTTP/1.1") []; B "> any "] /\ stream (k_client (snd res)) = LF :: B "GET".
Proof.
  destruct C59_app_case as (H1 & H2 & H3 & _). eexists. split; [apply start_running; vm_compute; reflexivity|].
  split; [intros HP; destruct (H3 HP)|]. split; [exact H1|]. split; [exact H2|]. cbv zeta. split; [|split]; vm_compute; reflexivity.
Qed.
