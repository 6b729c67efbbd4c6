(* Property C105 for applications with any mutators. *)
From Verif Require Import M_Base M_Status M_Method M_Proto M_KeyValue M_Query M_Request M_Parser M_Client M_Body
  M_Response M_Serializer M_Suit M_Path M_Radix M_Router M_Middleware M_Bundled S_KeyValue S_Chunk S_Head S_Parser S_Body S_Response S_Split S_Verdict S_Arrive S_Conn S_Unversioned S_Iso S_Routes S_Router S_Serve S_Upgrade S_Talk S_Missing S_Sync S_Ends S_Broken S_Mutators S_Mutated S_MutTalk S_Guarded
  L_Base L_Chunk L_ConnProps L_Router5 L_ServeEx L_Guarded L_MutTalk P_Parser P_Mutated.

(* C105 for all mutators and aliases that leave the connection alone, however they interfere: the
   handler that runs is the one registered for what they made of the request, and so is the
   request an error handler gets.  Behind Recover the handlers may panic (C112_app).
   Missing: as in C105_partial; with parameters, mutators that make a path empty *)
Theorem C105_mutators_partial : forall CS cparse encoded fresh inside,
  DecoderOk CS cparse encoded fresh inside -> forall begun, DecoderHonest encoded CS cparse fresh begun -> forall max, (0 <= max < two64)%Z -> Decided encoded max ->
  forall cfg umax kmax vmax fbs defs, (0 <= umax)%Z -> distinct_names defs ->
  forall W (os : list (list nat * rop W)) x mus, Running os x -> InOrder os [] mus -> HarmlessMutators os -> OrdinaryApp fbs (settled os) -> AlwaysRoutable os mus ->
  forall past ups (st : conn CS (world W)), Amid umax kmax vmax fbs defs fresh past ups st ->
  exists n outs left st1,
    Talk encoded max (cfg_limits cfg umax kmax vmax) defs (MutRouted os mus) (reads_of (k_client st)) (k_world st) past ups outs (k_world st1) left /\
    cl_out (k_client st1) = cl_out (k_client st) ++ outs /\
    match left with
    | None => forall fuel, (n <= fuel)%nat -> serve cparse max cfg (on_request x) (on_error x) fuel st = close_with cparse max (on_error x) EndWrite st1
    | Some (reads, past1, ups1) => reads = reads_of (k_client st1) /\ Stops encoded max (cfg_limits cfg umax kmax vmax) reads /\
        forall v, HeadHeard (cfg_limits cfg umax kmax vmax) reads v ->
        match v with
        | VTaken h rest =>
            (exists r, Heard (cfg_limits cfg umax kmax vmax) h r /\ forall long hung, Gone hung (cl_net (k_client st)) -> Lacks max long r rest ->
            exists o r', MutMissRouted os mus long hung (k_world st1) r rest o r' /\
            match o with
            | Panics => huge r = true /\ exists m st2, cl_out (k_client st2) = cl_out (k_client st1) /\ k_world st2 = k_world st1 /\
                forall fuel, (m <= fuel)%nat -> serve cparse max cfg (on_request x) (on_error x) fuel st = (EndPanic, st2)
            | Returns resp w1 => exists m out past' ups' st2 e, k_world st2 = w1 /\
                Replies defs past1 ups1 (read_as h) r' (not_nil resp) out past' ups' /\ cl_out (k_client st2) = cl_out (k_client st1) ++ out /\
                In e [EndWrite; EndClear; EndRead] /\ (e = EndWrite <-> ~ goes_on (read_as h) r' (not_nil resp)) /\
                forall fuel, (m <= fuel)%nat -> serve cparse max cfg (on_request x) (on_error x) fuel st = close_with cparse max (on_error x) e st2
            end) /\
            (exists r, Heard (cfg_limits cfg umax kmax vmax) h r /\ forall hung, Gone hung (cl_net (k_client st)) -> Breaks encoded max r rest ->
            exists m resp r' out past' ups' st2 told, MutBreakRouted os mus encoded max hung (k_world st1) r rest resp (k_world st2) r' told /\
              Replies defs past1 ups1 (read_as h) r' (not_nil resp) out past' ups' /\ cl_out (k_client st2) = cl_out (k_client st1) ++ out /\
              ((exists e, In e [EndWrite; EndClear; EndRead] /\ (e = EndWrite <-> ~ goes_on (read_as h) r' (not_nil resp)) /\
                 forall fuel, (m <= fuel)%nat -> serve cparse max cfg (on_request x) (on_error x) fuel st = close_with cparse max (on_error x) e st2) \/
               (told = true /\ goes_on (read_as h) r' (not_nil resp) /\
                 forall fuel, serve cparse max cfg (on_request x) (on_error x) (m + fuel)%nat st = serve cparse max cfg (on_request x) (on_error x) fuel st2)))
        | VMore => exists m st2, cl_out (k_client st2) = cl_out (k_client st1) /\ k_world st2 = k_world st1 /\
            forall fuel, (m <= fuel)%nat -> serve cparse max cfg (on_request x) (on_error x) fuel st = close_with cparse max (on_error x) EndRead st2
        | VPanics => exists m st2, cl_out (k_client st2) = cl_out (k_client st1) /\ k_world st2 = k_world st1 /\
            forall fuel, (m <= fuel)%nat -> serve cparse max cfg (on_request x) (on_error x) fuel st = (EndPanic, st2)
        | VRefused named e => exists q r1, r_proto q = or_default named (r_proto (p_req (k_parser st1))) /\ r1 = set_error (EHttp e) (one_by_one mus q) /\
            (Detached (error_choice os (he_code e) (k_world st1) r1) -> exists resp w' r' out m st2,
               detached_result (error_choice os (he_code e) (k_world st1) r1) r1 = Some (resp, w', r') /\
               (forall fuel, (m <= fuel)%nat -> serve cparse max cfg (on_request x) (on_error x) fuel st = (EndParse, st2)) /\
               k_world st2 = w' /\ cl_out (k_client st2) = cl_out (k_client st1) ++ [out] /\
               SentIn defs past1 (r_proto r') r' (not_nil resp) [out])
        end
    end.
Proof. exact mutated_talk. Qed.
Print Assumptions C105_mutators_partial.

(* one request, changed by an alias and a mutator; then a request line that is none: the path has
   been read before the defect is found, the mutator changes it all the same *)
Definition ex_bob2 : list (list nat * rop (list nat)) :=
  ex_bob ++ [([], OnErrors (fun w r => HRet (Some (set_rbody (r_path r) (set_code 418%N new_response))) w) [505%N])].
Example C105_mutators_case : exists x, Running ex_bob2 x /\ HarmlessMutators ex_bob2 /\ AlwaysRoutable ex_bob2 (x_mutators x) /\
  cl_out (k_client (snd (shop_serve x [wire bob_req; B "GET /x HT"; B "TP/7.7" ++ CRLF]))) =
    [ok_text (B "HTTP/1.1") (B "hello bob");
     crlf_lines [B "418 I'm a teapot"; B "Content-Type: text/html"; B "Content-Length: 6"; []] ++ B "/x/bob"].
Proof.
  eexists. split; [apply start_running; vm_compute; reflexivity|]. split; [|split].
  - intros addr mu H. cbn [ex_bob2 ex_bob app In] in H. intuition; try discriminate. match goal with K : _ = _ |- _ => injection K as <- <- end. intros r. repeat split; auto.
  - intros _ r _. cbn [x_mutators one_by_one fold_left]. unfold set_path. cbn [r_path]. intros H. apply app_eq_nil in H. destruct H as [_ H]. discriminate.
  - vm_compute. reflexivity.
Qed.
