(* Short proofs and witnesses behind P_Response.v. *)
From Verif Require Import M_Base M_Status M_Method M_Proto M_Client M_KeyValue M_Query M_Request M_Parser M_Response
  M_Serializer M_Middleware S_KeyValue S_Chunk S_Response L_Base L_Tables L_Response L_Response2 L_Response3 L_Attach P_Parser.

Definition ex_conn : client := new_client [] [].
Definition ex_ser : serializer := new_serializer 64 [(B "Server", B "indigo")].
Definition ex_req : request := set_method GET new_request.
Definition out_of (x : wres * serializer * client * fields) : list bytes := cl_out (snd (fst x)).
Definition res_of (x : wres * serializer * client * fields) : wres := fst (fst (fst x)).
Definition ser_of (x : wres * serializer * client * fields) : serializer := snd (fst (fst x)).
Definition res_of4 (x : wres * bytes * client * rd_events) : wres := fst (fst (fst x)).
Definition ex_cookie : cookie := Cookie (B "id") (B "a1") (B "/x") (B "h.org") None 0 (B "Lax") true true.
Definition ex_att : attachment := Att [(B "hello ", None); ([], None); (B "world", Some REof)] 0 true 0.
Definition ex_resp : fields :=
  set_cookies [ex_cookie] (set_rbody (B "hello") (set_rheaders [(B "X-A", B " b "); (B "server", B "mine")] (set_code 404%N new_response))).

Lemma cookie_read_all : forall c, PlainCookie c ->
  read_set_cookie (set_cookie_text (B "MaxAge") c) = Some (ck_name c, ck_value c, attributes (B "MaxAge") c).
Proof. intros c H. apply set_cookie_read; [reflexivity|exact H]. Qed.
Lemma cookie_standard : forall c, ck_maxage c = 0%Z -> PlainCookie c ->
  set_cookie_text (B "MaxAge") c = set_cookie_text (B "Max-Age") c /\
  read_set_cookie (set_cookie_text (B "MaxAge") c) = Some (ck_name c, ck_value c, attributes (B "Max-Age") c).
Proof.
  intros c Hm Hc. assert (E : attributes (B "MaxAge") c = attributes (B "Max-Age") c) by (unfold attributes; rewrite Hm; reflexivity).
  split; [unfold set_cookie_text; rewrite E; reflexivity|]. rewrite <- E. apply cookie_read_all. exact Hc.
Qed.
Lemma not_in_dec : forall x l, existsb (Byte.eqb x) l = false -> ~ In x l.
Proof.
  intros x l H Hi. assert (existsb (Byte.eqb x) l = true); [|congruence]. apply existsb_exists. exists x. split; [exact Hi|apply beq_refl].
Qed.
Ltac plain := split; [apply not_in_dec; reflexivity|reflexivity].
Lemma cookie_max_age_wrong : exists c, PlainCookie c /\ ck_maxage c = 60%Z /\
  s_buff (render_cookie c (Ser [] None 16 [])) = B "Set-Cookie: id=a1; MaxAge=60" ++ CRLF /\
  set_cookie_text (B "MaxAge") c <> set_cookie_text (B "Max-Age") c /\
  (forall n v l, read_set_cookie (set_cookie_text (B "MaxAge") c) = Some (n, v, l) -> ~ In (B "Max-Age", Some (B "60")) l).
Proof.
  exists (cookie_set_maxage 60 (cookie_new (B "id") (B "a1"))). split.
  { split; [plain|]. split; [apply not_in_dec; reflexivity|]. split; [plain|]. split; [plain|]. split; [plain|]. split; plain. }
  split; [reflexivity|]. split; [vm_compute; reflexivity|]. split; [vm_compute; discriminate|].
  intros n v l H Hi. vm_compute in H. injection H as <- <- <-. destruct Hi as [Hi|[]]. vm_compute in Hi. discriminate Hi.
Qed.
Lemma ex_cookie_ok : PlainCookie ex_cookie /\
  s_buff (render_cookie ex_cookie (Ser [] None 16 [])) =
  B "Set-Cookie: id=a1; Path=/x; Domain=h.org; SameSite=Lax; Secure; HttpOnly" ++ CRLF.
Proof.
  split; [|vm_compute; reflexivity].
  split; [plain|]. split; [apply not_in_dec; reflexivity|]. split; [plain|]. split; [plain|]. split; [plain|]. split; plain.
Qed.
Definition renderableb (f : fields) : bool :=
  forallb (fun e => cleanb (fst e) && negb (existsb (Byte.eqb x3a) (fst e)) && nonempty (fst e) && cleanb (snd e)) (f_headers f) &&
  cleanb (f_ctype f) && cleanb (f_te f) &&
  forallb (fun c => cleanb (ck_name c) && cleanb (ck_value c) && cleanb (ck_path c) && cleanb (ck_domain c) &&
                    cleanb (match ck_expires c with Some e => e | None => [] end) && cleanb (ck_samesite c)) (f_cookies f).
Lemma renderable_ok : forall f, renderableb f = true -> Renderable f.
Proof.
  intros f H. unfold renderableb in H. repeat (apply andb_true_iff in H; destruct H as [H ?]).
  split; [|split; [apply cleanb_ok; assumption|split; [apply cleanb_ok; assumption|]]].
  - apply Forall_forall. intros e He. rewrite forallb_forall in H. specialize (H e He). repeat (apply andb_true_iff in H; destruct H as [H ?]).
    split; [|apply cleanb_ok; assumption]. split; [apply cleanb_ok; assumption|]. split.
    + intros E. rewrite E in *. discriminate.
    + apply not_in_dec. apply negb_true_iff. assumption.
  - apply Forall_forall. intros c Hc. rewrite forallb_forall in H0. specialize (H0 c Hc). repeat (apply andb_true_iff in H0; destruct H0 as [H0 ?]).
    repeat split; apply cleanb_ok; assumption.
Qed.
Lemma two_lengths : exists f, resp_ops [RHeader (B "Content-Length") [B "1"]; RBody (B "hello")] new_response = Some f /\
  Renderable f /\ exists out, out_of (write_response HTTP11 ex_req f ex_ser ex_conn) = [out] /\
  out = B "HTTP/1.1 200 OK" ++ CRLF ++ B "Content-Length: 1" ++ CRLF ++ B "Server: indigo" ++ CRLF ++
        B "Content-Type: text/html" ++ CRLF ++ B "Content-Length: 5" ++ CRLF ++ CRLF ++ B "hello" /\
  read_response false out = None.
Proof.
  eexists. split; [reflexivity|]. split; [apply renderable_ok; reflexivity|]. eexists. split; [vm_compute; reflexivity|].
  split; vm_compute; reflexivity.
Qed.
Lemma bodyless_body : exists f, resp_ops [RCode 204%N; RBody (B "hi")] new_response = Some f /\ Renderable f /\
  exists out m, out_of (write_response HTTP11 ex_req f ex_ser ex_conn) = [out] /\
  read_response false out = Some (m, B "hi").
Proof.
  eexists. split; [reflexivity|]. split; [apply renderable_ok; reflexivity|]. eexists. eexists. split; [vm_compute; reflexivity|].
  vm_compute. reflexivity.
Qed.
Lemma te_unencoded : exists f, resp_ops [RTransferEncoding (B "chunked"); RBody (B "hello")] new_response = Some f /\
  Renderable f /\ exists out, out_of (write_response HTTP11 ex_req f ex_ser ex_conn) = [out] /\
  out = B "HTTP/1.1 200 OK" ++ CRLF ++ B "Server: indigo" ++ CRLF ++
        B "Content-Type: text/html" ++ CRLF ++ B "Transfer-Encoding: chunked" ++ CRLF ++ B "Content-Length: 5" ++ CRLF ++ CRLF ++ B "hello".
Proof.
  eexists. split; [reflexivity|]. split; [apply renderable_ok; reflexivity|]. eexists. split; [vm_compute; reflexivity|].
  vm_compute; reflexivity.
Qed.
Lemma ex_resp_ok : Served 64 [(B "Server", B "indigo")] [] ex_ser /\ Renderable ex_resp /\
  exists out, out_of (write_response HTTP11 ex_req ex_resp ex_ser ex_conn) = [out] /\
  read_response false (out ++ B "HTTP/1.1 ...") = Some (Msg (B "HTTP/1.1") 404 (B "Not Found")
    [(B "X-A", B "b"); (B "server", B "mine"); (B "Content-Type", B "text/html");
     (B "Set-Cookie", B "id=a1; Path=/x; Domain=h.org; SameSite=Lax; Secure; HttpOnly"); (B "Content-Length", B "5")]
    (B "hello"), B "HTTP/1.1 ...").
Proof.
  split; [apply Sv_new|]. split; [apply renderable_ok; reflexivity|]. eexists. split; [vm_compute; reflexivity|]. vm_compute. reflexivity.
Qed.
Lemma injected : exists v f out, resp_ops [RHeader (B "X-A") [v]] new_response = Some f /\
  out_of (write_response HTTP11 ex_req f ex_ser ex_conn) = [out] /\
  header_lines out = Some (S (List.length (sent_fields [(B "Server", B "indigo")] [] f))) /\
  exists m rest, read_response false out = Some (m, rest) /\ In (B "Set-Cookie", B "admin=1") (m_fields m).
Proof.
  exists (B "x" ++ CRLF ++ B "Set-Cookie: admin=1"). eexists. eexists. split; [vm_compute; reflexivity|].
  split; [vm_compute; reflexivity|]. split; [vm_compute; reflexivity|]. eexists. eexists. split; [vm_compute; reflexivity|]. vm_compute. tauto.
Qed.
Lemma injected_https : exists text p extra f out m rest,
  text = B "GET /%0d%0aSet-Cookie:admin=1 HTTP/1.1" ++ CRLF ++ B "Host: h" ++ CRLF ++ CRLF /\
  feed ex_cfg (new_parser 100 60 60 new_request) [text] = (RDone p extra, []) /\
  https_only [] [] (p_req p) = Some f /\
  out_of (write_response HTTP11 (p_req p) f ex_ser ex_conn) = [out] /\
  read_response false out = Some (m, rest) /\ In (B "Set-Cookie", B "admin=1") (m_fields m).
Proof.
  eexists. eexists. eexists. eexists. eexists. eexists. eexists. split; [reflexivity|].
  split; [vm_compute; reflexivity|]. split; [vm_compute; reflexivity|]. split; [vm_compute; reflexivity|]. split; [vm_compute; reflexivity|].
  vm_compute. tauto.
Qed.
Lemma chunk_too_big : exists n, forall mem c, List.length mem = (n + 12)%nat ->
  res_of4 (write_chunked [(repeat x61 n, Some REof)] mem c) = WPanic.
Proof.
  exists (N.to_nat 4294967296). intros mem c Hm. cbn [write_chunked]. rewrite repeat_length.
  replace (0 <? N.to_nat 4294967296)%nat with true by (symmetry; apply Nat.ltb_lt; lia).
  rewrite N2Nat.id.
  replace (hex_value_offset <? List.length (hex_N 4294967296))%nat with true by (vm_compute; reflexivity).
  reflexivity.
Qed.
Lemma fixed_attachment : forall fbs defs past s p r f a pieces more c res s' c' f',
  Served fbs defs past s -> distinct_names defs -> p <> PUnknown -> f_att f = Some a -> (0 < at_size a)%Z ->
  at_events a = reader_of pieces [] ++ more -> r_method r <> HEAD ->
  Forall (fun d => (List.length d <= Z.to_nat (Z.max 16 fbs))%nat) pieces -> writes_ok c ->
  write_response p r f s c = (res, s', c', f') ->
  res = WOk /\ cl_out c' = cl_out c ++
      [s_buff s ++ response_text (version_of p) (itoa_N (f_code f)) (sent_reason f) (attachment_fields defs past f a) []] ++ pieces.
Proof. intros. eapply plain_attachment; eassumption. Qed.
Lemma att_no_cookies : exists f, f_cookies f = [ex_cookie] /\
  exists h m, hd [] (out_of (write_response HTTP11 ex_req f ex_ser ex_conn)) = h /\
  read_response true h = Some (m, []) /\ all_values (m_fields m) (B "set-cookie") = [].
Proof.
  exists (set_att (Some ex_att) ex_resp). split; [reflexivity|]. eexists. eexists. split; [vm_compute; reflexivity|]. vm_compute. split; reflexivity.
Qed.
Lemma att_not_closed :
  (exists f a, f_att f = Some a /\ at_closer a = true /\ at_closes a = 0%nat /\
     f_att (snd (write_response HTTP11 (set_method HEAD ex_req) f ex_ser ex_conn)) = Some a) /\
  (exists f a, f_att f = Some a /\ at_closer a = true /\ at_closes a = 0%nat /\
     f_att (snd (write_response HTTP11 ex_req f ex_ser (new_client [] [Some 0%nat]))) = Some a).
Proof. split; exists (set_att (Some ex_att) new_response), ex_att; vm_compute; repeat split; reflexivity. Qed.
Lemma att_persistence : exists r f, f_att f = Some ex_att /\ r_connection r = B "close" /\
  res_of (write_response HTTP11 r f ex_ser ex_conn) = WOk /\
  res_of (write_response HTTP11 r (set_att None f) ex_ser ex_conn) = WClose.
Proof. exists (set_connection (B "close") ex_req), (set_att (Some ex_att) new_response). vm_compute. repeat split; reflexivity. Qed.
Lemma default_lost : exists f1 f2 s1,
  s1 = ser_of (write_response HTTP11 ex_req f1 ex_ser ex_conn) /\ f_headers f2 = [] /\
  out_of (write_response HTTP11 ex_req f2 s1 ex_conn) =
  [B "HTTP/1.1 200 OK" ++ CRLF ++ B "Content-Type: text/html" ++ CRLF ++ B "Content-Length: 0" ++ CRLF ++ CRLF].
Proof.
  exists (set_rheaders [(B "Server", B "mine")] new_response), new_response. eexists. split; [reflexivity|]. split; [reflexivity|]. vm_compute. reflexivity.
Qed.
Lemma default_case : exists defs f m, f_headers f = [(B "SERVER", B "x")] /\
  read_response false (concat (out_of (write_response HTTP11 ex_req f (new_serializer 64 defs) ex_conn))) = Some (m, []) /\
  all_values (m_fields m) (B "server") = [B "x"; B "b"].
Proof.
  exists [(B "Server", B "a"); (B "server", B "b")], (set_rheaders [(B "SERVER", B "x")] new_response). eexists.
  split; [reflexivity|]. split; [vm_compute; reflexivity|]. vm_compute. reflexivity.
Qed.
Lemma reason_standard : forall f, f_code f <> 101%N -> (exists ph, In (f_code f, ph) standard_phrases) ->
  In (f_code f, sent_reason f) standard_phrases /\ List.length (itoa_N (f_code f)) = 3%nat.
Proof.
  intros f Hc Hp. split.
  - unfold sent_reason. replace (f_code f =? 101)%N with false by (symmetry; apply N.eqb_neq; exact Hc). apply standard_reason. exact Hp.
  - destruct Hp as (ph & Hi). assert (K : forallb (fun e => (List.length (itoa_N (fst e)) =? 3)%nat) standard_phrases = true) by (vm_compute; reflexivity).
    rewrite forallb_forall in K. specialize (K _ Hi). apply Nat.eqb_eq in K. exact K.
Qed.
Lemma switching_not_standard : ~ In (101%N, sent_reason (set_code 101%N new_response)) standard_phrases.
Proof.
  intros H. assert (K : existsb (fun e => (fst e =? 101)%N && beqb (snd e) (sent_reason (set_code 101%N new_response))) standard_phrases = false) by (vm_compute; reflexivity).
  assert (existsb (fun e => (fst e =? 101)%N && beqb (snd e) (sent_reason (set_code 101%N new_response))) standard_phrases = true); [|congruence].
  apply existsb_exists. eexists. split; [exact H|]. cbn [fst snd]. rewrite beqb_refl. reflexivity.
Qed.
Lemma no_version : exists p out, 
  feed ex_cfg (new_parser 100 60 60 new_request) [B "GET / HTTP/3.0" ++ CRLF] = (RErr p ErrUnsupportedProtocol, []) /\
  out_of (write_response (r_proto (p_req p)) (p_req p) (set_code 505%N new_response) (new_serializer 64 []) ex_conn) = [out] /\
  firstn 8 out = B "505 HTTP".
Proof. eexists. eexists. split; [vm_compute; reflexivity|]. split; [vm_compute; reflexivity|]. vm_compute. reflexivity. Qed.
Lemma one_digit : exists f, resp_ops [RCode 7%N] new_response = Some f /\
  forall m rest, read_response false (concat (out_of (write_response HTTP11 ex_req f ex_ser ex_conn))) <> Some (m, rest).
Proof. eexists. split; [reflexivity|]. intros m rest. vm_compute. discriminate. Qed.
Lemma clear_after_sending : forall ops f0 f p r s c res s' c' f',
  resp_ops ops f0 = Some f -> write_response p r f s c = (res, s', c', f') -> fields_clear f' = new_response.
Proof. reflexivity. Qed.
Lemma known_size_no_te : forall defs past f a, (0 < at_size a)%Z -> f_te f = [] ->
  Forall (fun e => ~ same_key (fst e) (B "transfer-encoding")) (f_headers f ++ defs) ->
  all_values (attachment_fields defs past f a) (B "transfer-encoding") = [].
Proof.
  intros defs past f a Hz Ht Hf. apply Forall_app in Hf. destruct Hf as [H1 H2]. unfold attachment_fields.
  replace (0 <? at_size a)%Z with true by (symmetry; apply Z.ltb_lt; exact Hz). rewrite Ht. apply all_values_absent.
  repeat (apply Forall_app; split).
  - exact H1.
  - apply Forall_forall. intros e He. apply filter_In in He. rewrite Forall_forall in H2. apply H2. tauto.
  - constructor; [vm_compute; discriminate|constructor].
  - constructor.
  - constructor; [vm_compute; discriminate|constructor].
Qed.
Lemma file_handed_over : forall path r f g e leak, resp_try_file path r f = (g, e, leak) ->
  (e = None -> leak = false /\ exists a, f_att g = Some a /\ at_closer a = true) /\
  (e <> None -> g = f).
Proof.
  intros path r f g e leak H. destruct r as [| | |ev size]; cbn [resp_try_file] in H; injection H as <- <- <-;
    (split; [intros E; try discriminate E|intros E; try congruence; reflexivity]).
  split; [reflexivity|]. eexists. split; reflexivity.
Qed.
