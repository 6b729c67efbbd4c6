(* Property C82: what the server makes of any bytes, line by line. *)
From Verif Require Import M_Base M_Status M_Method M_Proto M_KeyValue M_Query M_Request M_Parser M_Client M_Body
  M_Response M_Serializer M_Suit M_Path M_Radix M_Router S_KeyValue S_Chunk S_Head S_Parser S_Body S_Response S_Conn S_Unversioned S_Split S_Routes S_Router S_Serve S_Verdict
  L_Router5 L_RouterEx L_Serve L_ServeEx L_Chunk L_ConnProps L_Loose L_Verdict L_VerdictConn P_Parser.

(* C82: whatever arrives, in whatever pieces: the parser does what the lines of the stream say
   (HeadSays): it asks for more, or takes the request with exactly the meaning of its lines and
   leaves the bytes behind it, or refuses it with the error of its first defect, or panics.
   Missing: request lines longer than the buffer (C69_limit_refuted, C71), header names with CR
   or LF (C69_refuted). *)
Theorem C82_verdict_partial : forall cfg umax kmax vmax t v, HeadSays (cfg_limits cfg umax kmax vmax) t v ->
  forall p reads, Ready umax kmax vmax p -> concat reads = t -> NamedHead t -> (len (start_part t) <= umax)%Z ->
  Obeys (cfg_limits cfg umax kmax vmax) (p_req p) (feed cfg p reads) v.
Proof. exact verdict. Qed.
Print Assumptions C82_verdict_partial.

(* every such stream has a verdict *)
Theorem C82_total_partial : forall lim t, NamedHead t -> exists v, HeadSays lim t v.
Proof. exact head_total. Qed.
Print Assumptions C82_total_partial.
(* and only one *)
Theorem C82_unique : forall lim t v v', NamedHead t -> HeadSays lim t v -> HeadSays lim t v' -> Agree v v'.
Proof. exact agree. Qed.
Print Assumptions C82_unique.

(* C02: so these are exactly the streams that crash the connection: a request line that ends with
   a space, or a header line, behind good ones within the limits, whose value is blank and which
   ends with a bare LF.  Missing: as above *)
Theorem C02_exactly_partial : forall cfg umax kmax vmax p reads, Ready umax kmax vmax p -> NamedHead (concat reads) ->
  (len (start_part (concat reads)) <= umax)%Z ->
  (fst (feed cfg p reads) = RPanic <-> HeadSays (cfg_limits cfg umax kmax vmax) (concat reads) VPanics).
Proof. exact panics_exactly. Qed.
Print Assumptions C02_exactly_partial.

(* C04: the length is that of the digits of all Content-Length lines, one after the other, spaces
   left out, as an int of 64 bits.  Missing: as above *)
Theorem C04_exactly_partial : forall cfg umax kmax vmax p reads h rest, Ready umax kmax vmax p -> NamedHead (concat reads) -> (len (start_part (concat reads)) <= umax)%Z ->
  HeadSays (cfg_limits cfg umax kmax vmax) (concat reads) (VTaken h rest) -> existsb is_content_length (h_lines h) = true ->
  exists q extra, fst (feed cfg p reads) = RDone q extra /\ as_int64 (dec_value (length_digits (h_lines h))) (r_content_length (p_req q)).
Proof. exact length_exactly. Qed.
Print Assumptions C04_exactly_partial.

(* C82, a whole connection of a server with the built-in router: after the requests, the bytes
   behind them are waited with, answered with the status code of the error and the version named
   last, or bring the connection down.  (What is taken as a request is C72.) *)
Theorem C82_connection_partial : forall CS cparse encoded fresh inside,
  DecoderOk CS cparse encoded fresh inside -> forall max, (max < two64)%Z ->
  forall cfg umax kmax vmax fbs defs, distinct_names defs ->
  forall W (os : list (list nat * rop W)) x, Running os x -> PlainAliases os -> OrdinaryApp fbs os -> NoErrorHandlers os -> uses os [] = [] ->
  forall reqs past (st : conn CS (world W)) tail v, Routable os reqs ->
  Between umax kmax vmax fbs defs fresh past st ->
  Forall (GoodRequest encoded (cfg_limits cfg umax kmax vmax) max) reqs ->
  NamedHead tail -> (len (start_part tail) <= umax)%Z -> HeadSays (cfg_limits cfg umax kmax vmax) tail v ->
  stream (k_client st) = concat (map wire reqs) ++ tail ->
  exists n outs closed st1, Dialogue defs os reqs (k_world st) past outs (k_world st1) closed /\
    cl_out (k_client st1) = cl_out (k_client st) ++ outs /\
    match closed with
    | Some _ => forall fuel, (n <= fuel)%nat -> serve cparse max cfg (on_request x) (on_error x) fuel st = close_with cparse max (on_error x) EndWrite st1
    | None =>
        match v with
        | VTaken _ _ => True
        | VMore => exists st2, cl_out (k_client st2) = cl_out (k_client st1) /\ k_world st2 = k_world st1 /\
            forall fuel, (n <= fuel)%nat -> serve cparse max cfg (on_request x) (on_error x) fuel st = close_with cparse max (on_error x) EndRead st2
        | VPanics => exists st2, cl_out (k_client st2) = cl_out (k_client st1) /\ k_world st2 = k_world st1 /\
            forall fuel, (n <= fuel)%nat -> serve cparse max cfg (on_request x) (on_error x) fuel st = (EndPanic, st2)
        | VRefused named e => exists out st2 past',
            (forall fuel, (n <= fuel)%nat -> serve cparse max cfg (on_request x) (on_error x) fuel st = (EndParse, st2)) /\
            k_world st2 = k_world st1 /\ cl_out (k_client st2) = cl_out (k_client st1) ++ [out] /\
            let p := or_default named (r_proto (p_req (k_parser st1))) in
            (p <> PUnknown -> out = response_text (version_of p) (itoa_N (he_code e)) (sent_reason (set_code (he_code e) new_response))
                                     (sent_fields defs past' (set_code (he_code e) new_response)) [])
        end
    end.
Proof. exact verdict_after. Qed.
Print Assumptions C82_connection_partial.

(* ---- cases ---- *)
Ltac plain := repeat split; vm_compute; intuition discriminate.
Definition case_line : head := Head GET (B "/a%20b") (B "/a b") (Some (B "q")) HTTP11 false [] false.
Lemma case_path : PctDecodes (B "/a%20b") (B "/a b").
Proof.
  apply (PD_char x2f (B "a%20b") (B "a b")); [discriminate|]. apply (PD_char x61 (B "%20b") (B " b")); [discriminate|].
  apply (PD_esc x32 x30 2%N 0%N (B "b") (B "b")); [reflexivity|reflexivity|]. apply (PD_char x62); [discriminate|]. apply PD_nil.
Qed.
Lemma case_line_good : GoodLine (B "GET") (B "/a%20b?q HTTP/1x1" ++ [CR]) case_line.
Proof.
  exists (B "HTTP/1x1" ++ [CR]). split; [discriminate|]. split; [reflexivity|]. split; [reflexivity|]. split; [vm_compute; intuition discriminate|].
  split; [exists x78; right; left; split; reflexivity|]. split; [discriminate|]. split; [vm_compute; intuition discriminate|].
  exact (pct_loose _ _ case_path).
Qed.
(* taken: two lengths are read as one number *)
Example C82_case_taken : exists ls, let t := B "GET /a%20b?q HTTP/1x1" ++ CR :: LF :: B "content-LENGTH: 1 " ++ CR :: LF :: B "Content-Length:2 3" ++ LF :: B "X:  y" ++ CR :: LF :: CR :: LF :: B "rest" in
  HeadSays ex_lim t (VTaken (with_lines ls case_line) (B "rest")) /\
  NamedHead t /\ (len (start_part t) <= 100)%Z /\ dec_value (length_digits ls) = 123%Z /\
  exists p, feed ex_cfg (new_parser 100 100 100 new_request) [firstn 40 t; []; skipn 40 t] = (RDone p (B "rest"), []) /\
    r_content_length (p_req p) = 123%Z /\ kv_pairs (r_headers (p_req p)) = [(B "X", B "y")] /\ r_path (p_req p) = B "/a b".
Proof.
  exists [HLine (B "content-LENGTH") 0 (B " 1 ") true; HLine (B "Content-Length") 0 (B "2 3") false; HLine (B "X") 2 (B "y") true]. cbv zeta.
  split; [|split; [|split; [|split]]].
  - apply (Hs_lines ex_lim (B "GET") (B "/a%20b?q HTTP/1x1" ++ [CR]) _ case_line (LTaken _ _)); [vm_compute; intuition discriminate|exact case_line_good|].
    apply (Ls_length_line ex_lim [] (B "content-LENGTH") (B " 1 ") true); [plain|reflexivity|vm_compute; discriminate|vm_compute; discriminate|repeat constructor; (left; reflexivity) || (right; reflexivity)|].
    apply (Ls_length_line ex_lim _ (B "Content-Length") (B "2 3") false); [plain|reflexivity|vm_compute; discriminate|vm_compute; discriminate|repeat constructor; (left; reflexivity) || (right; reflexivity)|].
    apply (Ls_line ex_lim _ (HLine (B "X") 2 (B "y") true)); [reflexivity|repeat split; vm_compute; intuition discriminate|vm_compute; discriminate|vm_compute; discriminate|split; vm_compute; discriminate|].
    exact (Ls_end ex_lim _ true (B "rest")).
  - intros m r H. vm_compute in H. injection H as <- <-. apply (Ml_line (B "/a%20b?q HTTP/1x1" ++ [CR])); [vm_compute; intuition discriminate|]. apply Nl_name.
    apply (Mn_colon (B "content-LENGTH")); [plain|]. apply (Ml_line (B " 1 " ++ [CR])); [vm_compute; intuition discriminate|]. apply Nl_name.
    apply (Mn_colon (B "Content-Length")); [plain|]. apply (Ml_line (B "2 3")); [vm_compute; intuition discriminate|]. apply Nl_name.
    apply (Mn_colon (B "X")); [plain|]. apply (Ml_line (B "  y" ++ [CR])); [vm_compute; intuition discriminate|]. apply Nl_cr.
  - vm_compute. discriminate.
  - reflexivity.
  - eexists. split; [vm_compute; reflexivity|]. split; [reflexivity|]. split; reflexivity.
Qed.
(* refused behind a good line, and a crash *)
Example C82_case_refused : let t := B "GET /a%20b?q HTTP/1x1" ++ CR :: LF :: B "Content-Length: 1x" ++ LF :: LF :: [] in
  HeadSays ex_lim t (VRefused (Some HTTP11) ErrBadRequest).
Proof.
  apply (Hs_lines ex_lim (B "GET") (B "/a%20b?q HTTP/1x1" ++ [CR]) _ case_line (LRefused _)); [vm_compute; intuition discriminate|exact case_line_good|].
  apply (Ls_length_bad ex_lim [] (B "Content-Length") (B " 1") x78); [plain|reflexivity|vm_compute; discriminate|vm_compute; discriminate|repeat constructor; (left; reflexivity) || (right; reflexivity)| | | | ]; (discriminate || reflexivity).
Qed.
Example C82_case_panics : let t := B "GET /a%20b?q HTTP/1x1" ++ CR :: LF :: B "X:  " ++ LF :: LF :: [] in
  HeadSays ex_lim t VPanics /\ fst (feed ex_cfg (new_parser 100 100 100 new_request) [firstn 5 t; skipn 5 t]) = RPanic.
Proof.
  split; [|vm_compute; reflexivity].
  apply (Hs_lines ex_lim (B "GET") (B "/a%20b?q HTTP/1x1" ++ [CR]) _ case_line LPanics); [vm_compute; intuition discriminate|exact case_line_good|].
  apply (Ls_blank ex_lim [] (B "X") 2); [plain|reflexivity|vm_compute; discriminate|vm_compute; discriminate|split; vm_compute; discriminate].
Qed.
Example C82_case_connection : exists x, Running shop x /\ NoErrorHandlers shop /\ uses shop [] = [] /\
  let net := [concat (map wire ex_reqs) ++ B "GET / HTTP/1.0" ++ CRLF ++ B "Content-Length: 1"; B "x"] in
  fst (shop_serve x net) = EndParse /\
  skipn 3 (cl_out (k_client (snd (shop_serve x net)))) =
    [crlf_lines [B "HTTP/1.0 400 Bad Request"; B "Content-Type: text/html"; B "Content-Length: 0"; []]].
Proof.
  eexists. split; [apply start_running; vm_compute; reflexivity|]. split; [intros a h cs [H|[H|[]]]; discriminate|]. split; [reflexivity|].
  cbv zeta. split; vm_compute; reflexivity.
Qed.

(* ---- applications with their own error handlers and middlewares ---- *)
(* C73: bytes that are no request are answered by the error handler the application chose for
   the code of the defect, behind the middlewares of the root router, with the error in the
   request; its response is sent, once, and then the connection ends.
   Missing: error handlers that use the body or send attachments (Detached).  If the version
   of the request is unknown the response has none (SentIn, C61_refuted) *)
Theorem C73_own_partial : forall CS cparse encoded fresh inside,
  DecoderOk CS cparse encoded fresh inside -> forall max, (max < two64)%Z ->
  forall cfg umax kmax vmax fbs defs, distinct_names defs ->
  (0 <= c_max_headers cfg)%Z -> (0 <= kmax)%Z -> (0 <= vmax)%Z -> (7 <= umax)%Z ->
  forall W (os : list (list nat * rop W)) x, Running os x -> PlainAliases os -> OrdinaryApp fbs os ->
  forall reqs past (st : conn CS (world W)) tail P, Routable os reqs ->
  Between umax kmax vmax fbs defs fresh past st ->
  Forall (GoodRequest encoded (cfg_limits cfg umax kmax vmax) max) reqs -> Malformed cfg umax kmax vmax tail P ->
  stream (k_client st) = concat (map wire reqs) ++ tail ->
  exists n outs closed st1, Dialogue defs os reqs (k_world st) past outs (k_world st1) closed /\
    cl_out (k_client st1) = cl_out (k_client st) ++ outs /\
    match closed with
    | Some _ => forall fuel, (n <= fuel)%nat -> serve cparse max cfg (on_request x) (on_error x) fuel st = close_with cparse max (on_error x) EndWrite st1
    | None => exists q e r1, P (he_code e) /\ GivenTo os q e r1 /\
        (Detached (error_choice os (he_code e) (k_world st1) r1) -> exists resp w' r' out st2 past',
           detached_result (error_choice os (he_code e) (k_world st1) r1) r1 = Some (resp, w', r') /\
           (exists m, forall fuel, (m <= fuel)%nat -> serve cparse max cfg (on_request x) (on_error x) fuel st = (EndParse, st2)) /\
           k_world st2 = w' /\ cl_out (k_client st2) = cl_out (k_client st1) ++ [out] /\
           SentIn defs past' (r_proto r') r' (not_nil resp) [out])
    end.
Proof.
  intros CS cparse encoded fresh inside HD max Hmax cfg umax kmax vmax fbs defs Hdefs H1 H2 H3 H4 W os x HR HA HO reqs past st tail P HRo HB HG HM HS.
  apply (refused_own CS cparse encoded fresh inside HD max Hmax cfg umax kmax vmax fbs defs Hdefs W os x HR HA HO reqs past st tail (fun _ _ e => P (he_code e)) HRo HB HG); [|exact HS].
  intros p reads Hp Hc. destruct (malformed_refused cfg umax kmax vmax tail P p reads HM H1 H2 H3 H4 Hp Hc) as (q & e & E & HPe). exists q, e. auto.
Qed.
Print Assumptions C73_own_partial.

(* C82: the same for every defect of a head, line by line, with the version named last *)
Theorem C82_own_partial : forall CS cparse encoded fresh inside,
  DecoderOk CS cparse encoded fresh inside -> forall max, (max < two64)%Z ->
  forall cfg umax kmax vmax fbs defs, distinct_names defs ->
  forall W (os : list (list nat * rop W)) x, Running os x -> PlainAliases os -> OrdinaryApp fbs os ->
  forall reqs past (st : conn CS (world W)) tail named e, Routable os reqs ->
  Between umax kmax vmax fbs defs fresh past st ->
  Forall (GoodRequest encoded (cfg_limits cfg umax kmax vmax) max) reqs ->
  NamedHead tail -> (len (start_part tail) <= umax)%Z -> HeadSays (cfg_limits cfg umax kmax vmax) tail (VRefused named e) ->
  stream (k_client st) = concat (map wire reqs) ++ tail ->
  exists n outs closed st1, Dialogue defs os reqs (k_world st) past outs (k_world st1) closed /\
    cl_out (k_client st1) = cl_out (k_client st) ++ outs /\
    match closed with
    | Some _ => forall fuel, (n <= fuel)%nat -> serve cparse max cfg (on_request x) (on_error x) fuel st = close_with cparse max (on_error x) EndWrite st1
    | None => exists q r1, r_proto r1 = or_default named (r_proto (p_req (k_parser st1))) /\ GivenTo os q e r1 /\
        (Detached (error_choice os (he_code e) (k_world st1) r1) -> exists resp w' r' out st2 past',
           detached_result (error_choice os (he_code e) (k_world st1) r1) r1 = Some (resp, w', r') /\
           (exists m, forall fuel, (m <= fuel)%nat -> serve cparse max cfg (on_request x) (on_error x) fuel st = (EndParse, st2)) /\
           k_world st2 = w' /\ cl_out (k_client st2) = cl_out (k_client st1) ++ [out] /\
           SentIn defs past' (r_proto r') r' (not_nil resp) [out])
    end.
Proof.
  intros CS cparse encoded fresh inside HD max Hmax cfg umax kmax vmax fbs defs Hdefs W os x HR HA HO reqs past st tail named e HRo HB HG HN HL HV HS.
  destruct (refused_own CS cparse encoded fresh inside HD max Hmax cfg umax kmax vmax fbs defs Hdefs W os x HR HA HO reqs past st tail
    (fun r0 q e' => e' = e /\ r_proto q = or_default named (r_proto r0)) HRo HB HG) as (n & outs & closed & st1 & D1 & D2 & D3); [|exact HS|].
  - intros p reads Hp Hc. destruct (verdict cfg umax kmax vmax tail _ HV p reads Hp Hc HN HL) as (q & E & Eq). exists q, e. auto.
  - exists n, outs, closed, st1. split; [exact D1|]. split; [exact D2|]. destruct closed; [exact D3|].
    destruct D3 as (q & e' & r1 & [-> Eq] & G & D3). exists q, r1. split; [rewrite (given_proto _ _ _ _ _ G); exact Eq|]. split; [exact G|exact D3].
Qed.
Print Assumptions C82_own_partial.
(* a handler for 400 and a middleware that notes each request: the defect is answered by it *)
Definition own_shop : list (list nat * rop (list nat)) :=
  shop ++ [([], OnErrors (fun w r => HRet (Some (set_rbody (B "no: " ++ r_path r) (set_code 418%N new_response))) w) [400%N]); ([], Use [mark (fun l n => l ++ [n]) 7])].
Example C82_case_own : exists x, Running own_shop x /\
  (forall w r, Detached (error_choice own_shop 400%N w r)) /\
  let net := [concat (map wire ex_reqs) ++ B "GET /b HTTP/1.0" ++ CRLF ++ B "Content-Length: 1"; B "x"] in
  fst (shop_serve x net) = EndParse /\ fst (k_world (snd (shop_serve x net))) = [7; 7; 7; 7]%nat /\
  skipn 3 (cl_out (k_client (snd (shop_serve x net)))) =
    [crlf_lines [B "HTTP/1.0 418 I'm a teapot"; B "Content-Type: text/html"; B "Content-Length: 6"; []] ++ B "no: /b"].
Proof.
  eexists. split; [apply start_running; vm_compute; reflexivity|]. split; [intros w r; apply Dt_ret; intros f E; injection E as <-; reflexivity|].
  cbv zeta. repeat split; vm_compute; reflexivity.
Qed.
