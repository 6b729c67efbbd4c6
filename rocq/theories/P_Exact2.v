(* Exact statements: what every query, Cookie header, header value with parameters, list of
   codings and Host is taken for, and which calls a body callback gets. *)
From Verif Require Import M_Base M_Status M_Method M_Proto M_KeyValue M_Query M_CookieJar M_HeaderValue M_Request M_Parser M_Client M_Body
  M_Response M_Serializer M_Suit M_Router M_Middleware M_Bundled S_KeyValue S_Head S_Parser S_Query S_Body S_Split S_Verdict S_Virtual S_Router S_Bundled S_Exact2
  L_Exact2 L_Exact3 P_Parser P_Body.

(* ---------------------------------------------------------------- C15, C16 *)
(* every text is read in one way *)
Theorem C15_exact : forall raw, exists l e, Reading raw l e /\ forall l' e', Reading raw l' e' -> l' = l /\ e' = e.
Proof.
  exact (fun raw => match reading_total raw with
    | ex_intro _ l (ex_intro _ e R) => ex_intro _ l (ex_intro _ e (conj R (fun l' e' R' =>
        let E := eq_trans (eq_sym (proj1 (reading_exactly _ _ _) R')) (proj1 (reading_exactly _ _ _) R) in conj (f_equal fst E) (f_equal snd E))))
    end).
Qed.
Print Assumptions C15_exact.
(* and that is what the accessors answer, in any order: the error once, then as if the query
   ended where the error was found *)
Theorem C16_exact : forall q raw l e, (q_parsed q = false -> kv_pairs (q_params q) = []) -> Reading raw l e ->
  forall accesses, Answers l e accesses (snd (q_calls (query_set q raw) accesses)).
Proof. exact reading_answers. Qed.
Print Assumptions C16_exact.
(* C16: what Raw returns after any accesses: the decoded text over the beginning of what was sent *)
Theorem C16_raw_exact : forall q raw a accesses, (q_parsed q = false -> kv_pairs (q_params q) = []) ->
  Leaves raw (query_raw (fst (q_calls (query_set q raw) (a :: accesses)))).
Proof. exact raw_exactly. Qed.
Print Assumptions C16_raw_exact.
Example C16_exact_case :
  snd (q_calls (query_set (query_new kv_new) (B "a=1&=2&c=3")) [AGet (B "a"); AGet (B "a"); AAll]) =
    [QA (QErr ErrBadQuery); QA (QValue (B "1")); QAll [(B "a", B "1")] None] /\
  query_raw (fst (q_calls (query_set (query_new kv_new) (B "a+b=%41+1&=+")) [AAll])) = B "a b=A 1&=+=+" /\
  query_raw (fst (q_calls (query_set (query_new kv_new) (B "%41+b%4")) [AAll])) = B "A41+b%4" /\
  Reading (B "%zz=1") [([x00], B "1")] None.
Proof.
  split; [vm_compute; reflexivity|]. split; [vm_compute; reflexivity|]. split; [vm_compute; reflexivity|].
  apply reading_exactly. vm_compute. reflexivity.
Qed.

(* ---------------------------------------------------------------- C18 *)
(* every Cookie header, well-formed or not *)
Theorem C18_exact : forall t l bad, cookie_parse t = (l, bad) <-> CookieHeader t l (negb bad).
Proof. exact cookie_header_exactly. Qed.
Print Assumptions C18_exact.
(* the jar of a request: all its Cookie headers, if none is malformed *)
Theorem C18_request_exact : forall s l, request_cookies s = Some l <->
  exists ls, Forall2 (fun t l => CookieHeader t l true) (all_values (kv_pairs s) (B "cookie")) ls /\ l = concat ls.
Proof. exact request_cookies_exactly. Qed.
Print Assumptions C18_request_exact.
Example C18_exact_case : CookieHeader (B "a=b; c; d=e;f=g=h") [(B "a", B "b"); (B "c; d", B "e"); (B "f", B "g=h")] true /\
  CookieHeader (B "a=1; b") [(B "a", B "1")] false /\ CookieHeader (B "a=1;  b=2") [(B "a", B "1"); (B " b", B "2")] true.
Proof. split; [|split]; [change true with (negb false)|change false with (negb true)|change true with (negb false)]; apply cookie_header_exactly; vm_compute; reflexivity. Qed.

(* ---------------------------------------------------------------- C49 *)
Theorem C49_value_exact : forall s v, value_of s = v <-> UpToSemicolon s v.
Proof. exact value_of_exactly. Qed.
Print Assumptions C49_value_exact.
(* a parameter is what is written behind the first ";name=", wherever that is *)
Theorem C49_param_exact : forall s key or v, param_of_or s key or = v <-> Param (B ";" ++ key ++ B "=") s or v.
Proof. exact (fun s key or v => param_exactly s (B ";" ++ key ++ B "=") or v). Qed.
Print Assumptions C49_param_exact.
Theorem C49_param_default_exact : forall s key v, param_of s key = v <-> Param (B ";" ++ key ++ B "=") s [] v.
Proof. exact (fun s key v => param_exactly s (B ";" ++ key ++ B "=") [] v). Qed.
Print Assumptions C49_param_default_exact.
Theorem C49_charset_exact : forall s v, charset_of s = v <-> Param (B ";charset=") s (B "iso-8859-1") v.
Proof. exact (fun s v => param_exactly s (B ";charset=") (B "iso-8859-1") v). Qed.
Print Assumptions C49_charset_exact.
(* the quality is the whole number written behind ";q=0.", or 9 *)
Theorem C49_quality_exact : forall s q, quality_of s = q <->
  exists t, Param (B ";q=0.") s (B "9") t /\ (Number t q \/ (forall n, ~ Number t n) /\ q = 9%Z).
Proof. exact quality_exactly. Qed.
Print Assumptions C49_quality_exact.
Example C49_exact_case : Number (B "-05") (-5) /\ (forall n, ~ Number (B "5x") n) /\ (forall n, ~ Number (B "9223372036854775808") n) /\ Number (B "-9223372036854775808") (- two63) /\
  UpToSemicolon (B "a;b;c") (B "a") /\ Param (B ";q=") (B "a;q=1;q=2") [] (B "1") /\ Param (B ";q=") (B "a; q=1") (B "x") (B "x").
Proof.
  split; [apply atoi_exactly; vm_compute; reflexivity|]. split; [intros n H; apply atoi_exactly in H; vm_compute in H; discriminate|].
  split; [intros n H; apply atoi_exactly in H; vm_compute in H; discriminate|]. split; [apply atoi_exactly; vm_compute; reflexivity|].
  split; [apply value_of_exactly; vm_compute; reflexivity|]. split; apply param_exactly; vm_compute; reflexivity.
Qed.

(* ---------------------------------------------------------------- C06 *)
(* C06: the codings are the elements of the last Transfer-Encoding line, "chunked" among them, or
   none at all if they are too many.  Missing: request lines longer than the buffer, header names
   with CR or LF. *)
Theorem C06_exactly_partial : forall cfg umax kmax vmax p reads h rest v, Ready umax kmax vmax p -> NamedHead (concat reads) -> (len (start_part (concat reads)) <= umax)%Z ->
  HeadSays (cfg_limits cfg umax kmax vmax) (concat reads) (VTaken h rest) -> last_value (B "transfer-encoding") (h_lines h) = Some v ->
  exists q extra l, fst (feed cfg p reads) = RDone q extra /\ Elements v l /\
    if (Z.of_nat (List.length l) <=? c_max_enc_tokens cfg)%Z
    then enc_transfer (r_encoding (p_req q)) = l /\ (enc_chunked (r_encoding (p_req q)) = true <-> exists t, In t l /\ equal_fold t (B "chunked") = true)
    else enc_transfer (r_encoding (p_req q)) = [] /\ enc_chunked (r_encoding (p_req q)) = false.
Proof. exact transfer_exactly. Qed.
Print Assumptions C06_exactly_partial.
(* a value has one list of elements; trimming takes away all white space around, and only that *)
Theorem C06_elements : forall v l, Elements v l <-> list_elements v = l.
Proof. exact (fun v l => iff_sym (elements_exactly v l)). Qed.
Print Assumptions C06_elements.
Theorem C06_trimmed : forall s e, trim_space s = e <-> Trimmed s e.
Proof. exact trim_exactly. Qed.
Print Assumptions C06_trimmed.
Example C06_exact_case : Elements (B " gzip ,, Chunked") [B "gzip"; B "Chunked"] /\ Trimmed ([x20; xe2; x80; x83] ++ B "a b" ++ [xc2; xa0; x09]) (B "a b") /\
  Trimmed [xc2; x20; x85] [xc2; x20; x85] /\ ~ Trimmed (B " a") (B " a").
Proof.
  split; [apply elements_exactly; vm_compute; reflexivity|]. split; [apply trim_exactly; vm_compute; reflexivity|]. split; [apply trim_exactly; vm_compute; reflexivity|].
  intros H. apply trim_exactly in H. vm_compute in H. discriminate.
Qed.

(* ---------------------------------------------------------------- C64 *)
(* C64: every plain request, if no host is configured: the Host header up to its first colon *)
Theorem C64_exact : forall W port (next : handler W) w r name, env_encryption (r_env r) = enc_plain -> UpToColon (hd [] (hosts_of r)) name ->
  https_only_mw [] port next w r = HRet (Some (match name with
    | [] => Fields 400%N [] (B "text/html") [] [] (B "no Host header") [] None
    | _ => answer_with 301%N (B "Location") (B "https://" ++ name ++ B ":" ++ port ++ asked_path r)
    end)) w.
Proof. exact https_exactly. Qed.
Print Assumptions C64_exact.
Example C64_exact_case : UpToColon (B "[::1]:80") (B "[") /\ UpToColon (B ":80") [] /\ UpToColon (B "h") (B "h").
Proof.
  split; [|split]; (split; [vm_compute; intuition discriminate|]); [right; exists (B ":1]:80")|right; exists (B "80")|left]; reflexivity.
Qed.

(* ---------------------------------------------------------------- C56 *)
(* C56: a body of known length that is all there: the function is called with each read of the
   connection, the last one cut at the end of the body, until it refuses one *)
Theorem C56_exact_partial : forall CS cparse max (b : body CS) r c text rest cb,
  FixedRequest max r text -> text <> [] -> stream c = text ++ rest ->
  exists l out ok b' c', Pieces (List.length text) (reads_of c) l /\ concat l = text /\ Calls cb [] l out ok /\
    body_callback cparse max cb (body_init b r) c = (out, if ok then Some (Some BEof) else None, b', c').
Proof. exact callback_exactly. Qed.
Print Assumptions C56_exact_partial.
(* and for every request without a body it is called once, with nothing.  Missing: chunked bodies *)
Theorem C56_nothing : forall CS cparse max (b : body CS) r c cb, enc_chunked (r_encoding r) = false -> r_content_length r = 0%Z ->
  exists b', body_callback cparse max cb (body_init b r) c = ([[]], if cb [[]] then Some (Some BEof) else None, b', c).
Proof. exact callback_nothing. Qed.
Print Assumptions C56_nothing.
Example C56_exact_case : Pieces 11 [B "he"; B "llo worldGET"; B "x"] [B "he"; B "llo world"] /\
  Calls (fun l => Nat.ltb (List.length l) 2) [] [B "he"; B "llo world"; B "x"] [B "he"; B "llo world"] false /\
  reads_of (Client [(B "llo", None); ([], Some NOther); (B "x", None)] (B "he") [] []) = [B "he"; B "llo"].
Proof.
  split; [apply Pc_more; [vm_compute; repeat constructor|]; apply Pc_last; vm_compute; split; repeat constructor|].
  split; [apply Ca_more; [reflexivity|]; apply Ca_refused; reflexivity|reflexivity].
Qed.
