(* Property C105: connections that receive any bytes in any reads, from the first to the last. *)
From Verif Require Import M_Base M_Status M_Method M_Proto M_KeyValue M_Query M_Request M_Parser M_Client M_Body
  M_Response M_Serializer M_Suit M_Path M_Radix M_Router S_KeyValue S_Chunk S_Head S_Parser S_Body S_Response S_Split S_Verdict S_Arrive S_Conn S_Unversioned S_Routes S_Router S_Serve S_Upgrade S_Talk S_Missing S_Sync S_Ends S_Broken
  L_Chunk L_Router5 L_RouterEx L_Serve L_ServeEx L_ConnProps L_Upgrade L_Arrive7 L_Talk3 L_Talk4 L_Talk5 L_Broken L_Broken2 P_Parser.

Definition C105_t1 : bytes := B "POST /a HTTP/1.1" ++ CRLF ++ B "X".
Definition C105_t2 : bytes := LF :: B "Y: z" ++ CRLF ++ B "Content" ++ CR :: B "Length: 3" ++ CRLF ++ CRLF ++ B "ab".
Definition C105_t3 : bytes := B "cGET /c HTTP/1.1" ++ CRLF ++ CRLF ++ B "POST /a HTTP/1.1" ++ CRLF ++ B "Transfer-Encoding: chunked" ++ CRLF ++ CRLF ++
            B "3" ++ CRLF ++ B "xyz" ++ CRLF ++ B "0" ++ CRLF ++ CRLF ++ B "GET /c HT".
Definition C105_reads : list bytes := [C105_t1 ++ C105_t2; C105_t3].
Definition C105_reads' : list bytes := [C105_t1; C105_t2; C105_t3].
(* C105: whatever bytes a client sends, in whatever reads, the server takes requests from them as
   long as heads and the bodies they announce are there, dispatches each to the one handler the
   application has for it, which is shown that head and that body and nothing else, and sends what
   the handlers answered, in this order, until a response closes the connection.  If none does,
   then what is left is no request: the connection waits for more, is brought down, or the error of
   the first defect goes to the error handler the application chose, whose answer is the last.
   And if the fixed-length body it announces does not come, its handler runs once all the same, and
   is shown this: what has come, as the whole body if the other side hung up and behind it an error
   if the connection broke; of a body longer than allowed nothing but errors, or its end if the other
   side hung up.  Its answer is the last on the connection (Lacks, MAnswer).  If the
   length is more than can be allocated the handler may panic instead, and that is the end (huge).
   And if there is no chunked body where one is announced, its handler runs once all the same, is
   given the data that the bytes determine, and behind it the error there is, or the end if the other
   side hung up (Breaks, CAnswer).  Its answer is the last as well, unless it was told that the body is
   too long or no coding: then the connection may go on somewhere (C106_refuted).
   Missing: bodies of more than 2^48 bytes that do come (C105_cases); in applications with parameters, aliases to the empty path; applications with handlers that are not ordinary, error handlers
   that use the body or send attachments (Detached).  If the version of the request is
   unknown the response has none (SentIn, C61_refuted) *)
Theorem C105_partial : forall CS cparse encoded fresh inside,
  DecoderOk CS cparse encoded fresh inside -> forall begun, DecoderHonest encoded CS cparse fresh begun -> forall max, (0 <= max < two64)%Z -> Decided encoded max ->
  forall cfg umax kmax vmax fbs defs, (0 <= umax)%Z -> distinct_names defs ->
  forall W (os : list (list nat * rop W)) x, Running os x -> PlainAliases os -> OrdinaryApp fbs os ->
  (HasParams os -> forall f t, In (f, t) (aliases os) -> t <> []) ->
  forall past ups (st : conn CS (world W)), Amid umax kmax vmax fbs defs fresh past ups st ->
  exists n outs left st1,
    Talk encoded max (cfg_limits cfg umax kmax vmax) defs (Routed os) (reads_of (k_client st)) (k_world st) past ups outs (k_world st1) left /\
    cl_out (k_client st1) = cl_out (k_client st) ++ outs /\
    match left with
    | None => forall fuel, (n <= fuel)%nat -> serve cparse max cfg (on_request x) (on_error x) fuel st = close_with cparse max (on_error x) EndWrite st1
    | Some (reads, past1, ups1) => reads = reads_of (k_client st1) /\ Stops encoded max (cfg_limits cfg umax kmax vmax) reads /\
        forall v, HeadHeard (cfg_limits cfg umax kmax vmax) reads v ->
        match v with
        | VTaken h rest =>
            (exists r, Heard (cfg_limits cfg umax kmax vmax) h r /\ forall long hung, Gone hung (cl_net (k_client st)) -> Lacks max long r rest ->
            exists o r', MissRouted os long hung (k_world st1) r rest o r' /\
            match o with
            | Panics => huge r = true /\ exists m st2, cl_out (k_client st2) = cl_out (k_client st1) /\ k_world st2 = k_world st1 /\
                forall fuel, (m <= fuel)%nat -> serve cparse max cfg (on_request x) (on_error x) fuel st = (EndPanic, st2)
            | Returns resp w1 => exists m out past' ups' st2 e, k_world st2 = w1 /\
                Replies defs past1 ups1 (read_as h) r' (not_nil resp) out past' ups' /\ cl_out (k_client st2) = cl_out (k_client st1) ++ out /\
                In e [EndWrite; EndClear; EndRead] /\ (e = EndWrite <-> ~ goes_on (read_as h) r' (not_nil resp)) /\
                forall fuel, (m <= fuel)%nat -> serve cparse max cfg (on_request x) (on_error x) fuel st = close_with cparse max (on_error x) e st2
            end) /\
            (exists r, Heard (cfg_limits cfg umax kmax vmax) h r /\ forall hung, Gone hung (cl_net (k_client st)) -> Breaks encoded max r rest ->
            exists m resp r' out past' ups' st2 told, BreakRouted encoded max hung os (k_world st1) r rest resp (k_world st2) r' told /\
              Replies defs past1 ups1 (read_as h) r' (not_nil resp) out past' ups' /\ cl_out (k_client st2) = cl_out (k_client st1) ++ out /\
              ((exists e, In e [EndWrite; EndClear; EndRead] /\ (e = EndWrite <-> ~ goes_on (read_as h) r' (not_nil resp)) /\
                 forall fuel, (m <= fuel)%nat -> serve cparse max cfg (on_request x) (on_error x) fuel st = close_with cparse max (on_error x) e st2) \/
               (told = true /\ goes_on (read_as h) r' (not_nil resp) /\
                 forall fuel, serve cparse max cfg (on_request x) (on_error x) (m + fuel)%nat st = serve cparse max cfg (on_request x) (on_error x) fuel st2)))
        | VMore => exists m st2, cl_out (k_client st2) = cl_out (k_client st1) /\ k_world st2 = k_world st1 /\
            forall fuel, (m <= fuel)%nat -> serve cparse max cfg (on_request x) (on_error x) fuel st = close_with cparse max (on_error x) EndRead st2
        | VPanics => exists m st2, cl_out (k_client st2) = cl_out (k_client st1) /\ k_world st2 = k_world st1 /\
            forall fuel, (m <= fuel)%nat -> serve cparse max cfg (on_request x) (on_error x) fuel st = (EndPanic, st2)
        | VRefused named e => exists q r1, r_proto r1 = or_default named (r_proto (p_req (k_parser st1))) /\ GivenTo os q e r1 /\
            (Detached (error_choice os (he_code e) (k_world st1) r1) -> exists resp w' r' out m st2,
               detached_result (error_choice os (he_code e) (k_world st1) r1) r1 = Some (resp, w', r') /\
               (forall fuel, (m <= fuel)%nat -> serve cparse max cfg (on_request x) (on_error x) fuel st = (EndParse, st2)) /\
               k_world st2 = w' /\ cl_out (k_client st2) = cl_out (k_client st1) ++ [out] /\
               SentIn defs past1 (r_proto r') r' (not_nil resp) [out])
        end
    end.
Proof. exact app_talk. Qed.
Print Assumptions C105_partial.

(* C105 is false in full: bytes that are no request may get no answer and end in a panic: a request
   line that ends with a space (C70) *)
Theorem C105_refuted : exists (x : runtime (list nat)) data, Running shop x /\ fst (shop_serve x [data]) = EndPanic /\ cl_out (k_client (snd (shop_serve x [data]))) = [].
Proof. eexists. exists (B "GET /a HTTP/1.1 " ++ LF :: CRLF). split; [apply start_running; vm_compute; reflexivity|]. split; vm_compute; reflexivity. Qed.
Print Assumptions C105_refuted.
(* C105: the same bytes are not cut into requests in one way: it depends on the reads whether a
   line feed within a header name is a part of the name, so that two requests get one answer or two *)
Theorem C105_reads_refuted : exists (x : runtime (list nat)) reads reads', Running shop x /\ concat reads = concat reads' /\
  List.length (cl_out (k_client (snd (shop_serve x reads)))) = 3%nat /\ List.length (cl_out (k_client (snd (shop_serve x reads')))) = 2%nat.
Proof.
  eexists. exists C105_reads, C105_reads'. split; [apply start_running; vm_compute; reflexivity|]. split; [vm_compute; reflexivity|]. split; vm_compute; reflexivity.
Qed.
Print Assumptions C105_reads_refuted.

(* the coding of RFC 9112 (without extensions and trailer fields) is one to which this applies *)
Theorem C105_chunked : forall max, Decided chunked_text max.
Proof. exact chunked_decided. Qed.
Print Assumptions C105_chunked.

(* and its decoder is honest about everything else *)
Theorem C105_honest : exists begun, DecoderHonest chunked_text kstate ref_parse kfresh begun.
Proof. exists kran. exact ref_decoder_honest. Qed.
Print Assumptions C105_honest.
(* C105: nothing is left out: when a head stands there without a body that can be given to a handler,
   it is one of the two cases above; the bound is on what can be sent *)
Theorem C105_cases : forall encoded max lim reads h rest r, (0 <= max)%Z -> Stops encoded max lim reads ->
  HeadHeard lim reads (VTaken h rest) -> Heard lim h r -> (len rest <= 281474976710656)%Z ->
  Breaks encoded max r rest \/ exists long, Lacks max long r rest.
Proof.
  intros encoded max lim reads h rest r Hm Hs HV Hr Hl.
  destruct (no_body encoded max lim h r rest Hm Hr (fun text rest' => Hs h rest HV r text rest' Hr)) as [H|[H|H]]; [auto|lia|auto].
Qed.
Print Assumptions C105_cases.

(* C105: in one way: whatever two readings of the same reads there are, they take the same path, the
   same body, and leave the same bytes for the next request *)
Theorem C105_one_way : forall CS cparse encoded fresh inside, DecoderOk CS cparse encoded fresh inside -> (exists s, fresh s) ->
  forall cfg umax kmax vmax max reads h rest h' rest2 r r' text left text' left', (0 <= umax)%Z -> let lim := cfg_limits cfg umax kmax vmax in
  HeadHeard lim reads (VTaken h rest) -> HeadHeard lim reads (VTaken h' rest2) -> Heard lim h r -> Heard lim h' r' ->
  BodyOf encoded max r rest text left -> BodyOf encoded max r' rest2 text' left' ->
  r_path r = r_path r' /\ text = text' /\ left = left'.
Proof.
  intros CS cparse encoded fresh inside HD Hf cfg umax kmax vmax max reads h rest h' rest2 r r' text left text' left' HU lim H H' Hr Hr' B1 B2.
  destruct (same_framing cfg umax kmax vmax _ _ _ _ _ _ _ HU H H' Hr Hr') as (<- & F).
  split; [rewrite (heard_path _ _ _ Hr), (heard_path _ _ _ Hr'); exact (same_path cfg umax kmax vmax _ _ _ _ _ HU H H')|].
  eapply body_one; [exact HD|exact Hf|exact B1|]. eapply body_framing; [symmetry; exact F|exact B2].
Qed.
Print Assumptions C105_one_way.

(* three requests in a stream no client should send: a line feed and a carriage return in names, the
   latter counting as the hyphen of Content-Length.  All three are answered, and a fourth is awaited.
   If a read begins with the line feed, the first request ends there, without its body; what comes
   next is no method *)
Example C105_case :
  let t1 := B "POST /a HTTP/1.1" ++ CRLF ++ B "X" in let t2 := LF :: B "Y: z" ++ CRLF ++ B "Content" ++ CR :: B "Length: 3" ++ CRLF ++ CRLF ++ B "ab" in
  let t3 := B "cGET /c HTTP/1.1" ++ CRLF ++ CRLF ++ B "POST /a HTTP/1.1" ++ CRLF ++ B "Transfer-Encoding: chunked" ++ CRLF ++ CRLF ++
            B "3" ++ CRLF ++ B "xyz" ++ CRLF ++ B "0" ++ CRLF ++ CRLF ++ B "GET /c HT" in
  exists x, Running shop x /\ PlainAliases shop /\ OrdinaryApp 64 shop /\ ~ HasParams shop /\
  (forall net, Amid 100 100 100 64 [] kfresh [] [] (shop_conn net)) /\
  fst (shop_serve x [t1 ++ t2; t3]) = EndRead /\
  cl_out (k_client (snd (shop_serve x [t1 ++ t2; t3]))) =
    [ok_text (B "HTTP/1.1") (B "abc"); ok_text (B "HTTP/1.1") []; ok_text (B "HTTP/1.1") (B "xyz")] /\
  fst (shop_serve x [t1; t2; t3]) = EndParse /\
  cl_out (k_client (snd (shop_serve x [t1; t2; t3]))) =
    [ok_text (B "HTTP/1.1") []; crlf_lines [B "HTTP/1.1 501 Not Implemented"; B "Content-Type: text/html"; B "Content-Length: 0"; []]].
Proof.
  cbv zeta. eexists. split; [apply start_running; vm_compute; reflexivity|]. split; [exact shop_plain|]. split; [exact shop_ordinary|]. split; [exact shop_static|].
  split; [intros net; apply new_amid; [reflexivity|constructor]|].
  repeat split; vm_compute; reflexivity.
Qed.

(* a body of ten bytes of which three come: the client hangs up, and they pass for the whole body; the
   connection breaks, and there is none; and a body of more bytes than allowed, all of which come *)
(* a length that can not be allocated, more than a hundred allowed, and a handler that asks for
   the body: the connection ends in a panic, nothing is answered *)
Example C105_huge_case :
  let t := B "POST /a HTTP/1.1" ++ CRLF ++ B "Content-Length: 281474976710657" ++ CRLF ++ CRLF in
  exists x, Running shop x /\ fst (shop_serve x [t]) = EndPanic /\ cl_out (k_client (snd (shop_serve x [t]))) = [].
Proof. cbv zeta. eexists. split; [apply start_running; vm_compute; reflexivity|]. split; vm_compute; reflexivity. Qed.
Example C105_missing_case :
  let t n d := B "POST /a HTTP/1.1" ++ CRLF ++ B "Content-Length: " ++ n ++ CRLF ++ CRLF ++ d in
  let run x net := serve ref_parse 100 ex_cfg (on_request x) (on_error x) 50 (new_conn 100 100 100 64 [] enc_plain (KSize 0 false) (new_client net []) ([], [])) in
  exists x, Running shop x /\
  (let r := run x [(t (B "10") (B "abc"), None); ([], Some NEof)] in fst r = EndRead /\ cl_out (k_client (snd r)) = [ok_text (B "HTTP/1.1") (B "abc")]) /\
  (let r := run x [(t (B "10") (B "abc"), None); ([], Some NOther)] in fst r = EndClear /\ cl_out (k_client (snd r)) = [ok_text (B "HTTP/1.1") []]) /\
  (let r := run x [(t (B "101") (repeat "a"%byte 101 ++ t (B "1") (B "b")), None)] in fst r = EndClear /\ cl_out (k_client (snd r)) = [ok_text (B "HTTP/1.1") []]) /\
  Gone true [(t (B "10") (B "abc"), None); ([], Some NEof)] /\ Gone false [(t (B "10") (B "abc"), None); ([], Some NOther)].
Proof.
  cbv zeta. eexists. split; [apply start_running; vm_compute; reflexivity|].
  split; [split; vm_compute; reflexivity|]. split; [split; vm_compute; reflexivity|]. split; [split; vm_compute; reflexivity|].
  split; [apply Gn_read, Gn_hung; reflexivity|apply Gn_read, Gn_broken; [reflexivity|repeat constructor]].
Qed.

(* a chunked body of seven bytes of which five come: the client hangs up, and they pass for the whole
   body; the connection breaks, and there is none; what comes is no coding, which the handler (it
   answers with what it could read) is told, and the connection is over; and the data the beginnings
   determine *)
Example C105_broken_case :
  let t d := B "POST /a HTTP/1.1" ++ CRLF ++ B "Transfer-Encoding: chunked" ++ CRLF ++ CRLF ++ d in
  let run x net := serve ref_parse 100 ex_cfg (on_request x) (on_error x) 50 (new_conn 100 100 100 64 [] enc_plain (KSize 0 false) (new_client net []) ([], [])) in
  let five := B "3" ++ CRLF ++ B "abc" ++ CRLF ++ B "4" ++ CRLF ++ B "de" in
  exists x, Running shop x /\
  (let r := run x [(t five, None); ([], Some NEof)] in fst r = EndRead /\ cl_out (k_client (snd r)) = [ok_text (B "HTTP/1.1") (B "abcde")]) /\
  (let r := run x [(t five, None); ([], Some NOther)] in fst r = EndClear /\ cl_out (k_client (snd r)) = [ok_text (B "HTTP/1.1") []]) /\
  (let r := run x [(t (B "3" ++ CRLF ++ B "abcd"), None); ([], Some NOther)] in fst r = EndClear /\ cl_out (k_client (snd r)) = [ok_text (B "HTTP/1.1") []]) /\
  Determines chunked_text false five (B "abcde") /\ NoCoding chunked_text false (B "3" ++ CRLF ++ B "abcd").
Proof.
  cbv zeta. eexists. split; [apply start_running; vm_compute; reflexivity|].
  split; [split; vm_compute; reflexivity|]. split; [split; vm_compute; reflexivity|]. split; [split; vm_compute; reflexivity|]. split.
  - apply (dh_data _ _ _ _ _ ref_decoder_honest (KData 2)). reflexivity.
  - exact (dh_error _ _ _ _ _ ref_decoder_honest (KSize 0 false) false [] [] (B "3" ++ CRLF ++ B "abcd") _ _ _ eq_refl eq_refl).
Qed.
