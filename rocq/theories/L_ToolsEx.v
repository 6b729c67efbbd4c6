(* Examples for and instances of the lemmas about the smaller packages. *)
From Coq Require FinFun.
From Verif Require Import M_Base M_Status M_Method M_Proto M_KeyValue M_Query M_Escape M_HeaderValue M_Request M_Parser M_Client M_Body
  M_Response M_Serializer M_Suit M_Path M_Router M_Tools S_Static S_KeyValue S_Chunk S_Head S_Parser S_Body S_Query S_Values S_Response S_Conn S_Unversioned S_Tools
  L_Base L_KeyValue L_Values L_Tables L_Chunk L_Conn2 L_Conn3 L_ConnProps L_ConnEnd L_ParserProps L_Head L_Tools P_Parser.

(* ---- the simple router ---- *)
Lemma simple_requests : forall CS cparse encoded fresh inside,
  DecoderOk CS cparse encoded fresh inside -> forall max, (max < two64)%Z ->
  forall cfg umax kmax vmax fbs defs, distinct_names defs ->
  forall W (h eh : W -> request -> hprog W),
  forall reqs past (st : conn CS W) tail,
  (forall q w r, In q reqs -> Shows (q_head q) r -> Ordinary fbs (h w r)) ->
  Between umax kmax vmax fbs defs fresh past st ->
  Forall (GoodRequest encoded (cfg_limits cfg umax kmax vmax) max) reqs ->
  Unfinished (cfg_limits cfg umax kmax vmax) tail ->
  stream (k_client st) = concat (map wire reqs) ++ tail ->
  exists n outs closed st1,
    Conversation defs h reqs (k_world st) past outs (k_world st1) closed /\
    cl_out (k_client st1) = cl_out (k_client st) ++ outs /\
    forall fuel, (n <= fuel)%nat ->
      serve cparse max cfg (simple_request h) (simple_error eh) fuel st =
      close_with cparse max (simple_error eh) (match closed with None => EndRead | Some _ => EndWrite end) st1.
Proof.
  intros CS cparse encoded fresh inside HD max Hm cfg umax kmax vmax fbs defs Hd W h eh reqs past st tail Ho HB Hg Hu Hs.
  exact (whole_connection CS cparse encoded fresh inside HD max Hm cfg umax kmax vmax fbs defs Hd W h (simple_error eh) reqs past st tail Ho HB Hg Hu Hs).
Qed.
Lemma simple_errors : forall CS (cparse : CS -> bytes -> bool -> CS * (bytes * bytes * option cerr)) (fresh : CS -> Prop) max
    cfg umax kmax vmax fbs defs, distinct_names defs ->
  forall W (h eh : W -> request -> hprog W) past (st : conn CS W) p' e rs,
  Between umax kmax vmax fbs defs fresh past st ->
  feed cfg (k_parser st) (reads_of (k_client st)) = (RErr p' e, rs) ->
  forall r1, r1 = (let v := r_env (p_req p') in
    set_env (Env (Some (EHttp e)) (env_allowed v) (env_encryption v) (env_alias_from v)) (p_req p')) ->
  Detached (eh (k_world st) r1) ->
  exists n resp w' r' out st1, detached_result (eh (k_world st) r1) r1 = Some (resp, w', r') /\
    (forall fuel, (n <= fuel)%nat -> serve cparse max cfg (simple_request h) (simple_error eh) fuel st = (EndParse, st1)) /\
    k_world st1 = w' /\ cl_out (k_client st1) = cl_out (k_client st) ++ [out] /\
    SentIn defs past (r_proto r') r' (not_nil resp) [out].
Proof.
  intros CS cparse fresh max cfg umax kmax vmax fbs defs Hd W h eh past st p' e rs HB HF r1 E1 HD.
  assert (E2 : r1 = set_error (EHttp e) (p_req p')) by exact E1. clear E1. subst r1.
  assert (D : Detached (simple_error eh (k_world st) (p_req p') e)) by (unfold simple_error; apply Dt_update; exact HD).
  exact (bad_head CS cparse fresh max cfg umax kmax vmax fbs defs Hd W (simple_request h) (simple_error eh) past st p' e rs HB D HF).
Qed.
Definition simple_h (w : list bytes) (r : request) : hprog (list bytes) :=
  HRet (Some (set_rbody (r_path r) new_response)) (w ++ [r_path r]).
Definition simple_eh (w : list bytes) (r : request) : hprog (list bytes) :=
  let msg := match env_error (r_env r) with Some (EHttp e) => he_msg e | _ => [] end in
  HRet (Some (set_rbody msg new_response)) (w ++ [msg]).
Definition simple_serve (net : list bytes) : ending * conn kstate (list bytes) :=
  serve ref_parse 100 ex_cfg (simple_request simple_h) (simple_error simple_eh) 50
    (new_conn 100 100 100 64 [] enc_plain (KSize 0 false) (new_client (map (fun d => (d, None)) net) []) []).
Lemma simple_h_ordinary : forall w r, Ordinary 64 (simple_h w r).
Proof. intros w r. apply Ta_ret. intros f H. injection H as <-. apply Sd_plain. reflexivity. Qed.
Lemma simple_eh_detached : forall w r, Detached (simple_eh w r).
Proof. intros w r. apply Dt_ret. intros f H. injection H as <-. reflexivity. Qed.

(* ---- the request log ---- *)
Lemma log_text : forall W A (lines : W -> list bytes) (rest : W -> A) deflt loggers r w,
  Appends lines rest deflt -> Forall (Appends lines rest) loggers -> Forall printable (r_path r) ->
  lines (write_log deflt loggers r w) =
    lines w ++ repeat (method_string (r_method r) ++ B " " ++ r_path r) (Nat.max 1 (List.length loggers)).
Proof.
  intros W A lines rest deflt loggers r w Hd Hl Hp. rewrite (proj1 (write_log_spec W A lines rest deflt loggers r w Hd Hl)).
  unfold request_line_log. rewrite (escaped_same (r_path r) Hp). reflexivity.
Qed.
Definition noted := (list bytes * list call)%type.
Definition noticed_request (w : noted) (r : request) : hprog noted := HRet None (fst w, snd w ++ [CRequest]).
Definition noticed_error (w : noted) (r : request) (e : http_error) : hprog noted := HRet None (fst w, snd w ++ [CError e]).
Definition note_line (l : bytes) (w : noted) : noted := (fst w ++ [l], snd w).
Definition logged_serve (net : list bytes) : ending * conn kstate noted :=
  serve ref_parse 100 ex_cfg (logging_request [] note_line [] noticed_request) (logging_error [] note_line [] noticed_error) 50
    (new_conn 100 100 100 64 [] enc_plain (KSize 0 false) (new_client (map (fun d => (d, None)) net) []) ([], [])).
Lemma noticed : Notices ref_parse 100 snd noticed_request noticed_error.
Proof. split; intros; cbn in H; injection H as _ <- _ _ _; reflexivity. Qed.
Lemma left_alone : LeavesLog ref_parse 100 fst noticed_request noticed_error.
Proof. split; intros; cbn in H; injection H as _ <- _ _ _; reflexivity. Qed.
Lemma appended : Appends fst snd note_line.
Proof. intros l w. split; reflexivity. Qed.

(* ---- generated requests ---- *)
Lemma generated : forall cfg umax kmax vmax p path decoded q h reads tail,
  Ready umax kmax vmax p -> ~ In x3f path -> ~ In LF path -> PctDecodes path decoded ->
  match q with None => True | Some t => ~ In LF t end -> Forall good_header (kv_pairs h) ->
  S_Head.fits (cfg_limits cfg umax kmax vmax) (gen_head path decoded q (kv_pairs h)) ->
  concat reads = generate (path ++ match q with None => [] | Some t => x3f :: t end) h ++ tail ->
  exists p' extra rs, feed cfg p reads = (RDone p' extra, rs) /\ extra ++ concat rs = tail /\
    r_method (p_req p') = GET /\ r_path (p_req p') = x2f :: decoded /\ r_proto (p_req p') = HTTP11 /\
    match q with Some t => q_raw (r_query (p_req p')) = t | None => r_query (p_req p') = r_query (p_req p) end /\
    kv_pairs (r_headers (p_req p')) = kv_pairs (r_headers (p_req p)) ++ kv_pairs h.
Proof.
  intros cfg umax kmax vmax p path decoded q h reads tail HR H1 H2 H3 H4 H5 H6 H7. rewrite (generate_text path decoded q h) in H7.
  destruct (segmentation_means cfg umax kmax vmax p _ reads tail HR (gen_wf path decoded q _ H1 H2 H3 H4 H5) H6 H7) as (p' & extra & rs & F1 & F2 & F3 & F4).
  exists p', extra, rs. split; [exact F1|]. split; [exact F2|]. split; [exact (mn_method _ _ _ F4)|]. split; [exact (mn_path _ _ _ F4)|].
  split; [exact (mn_proto _ _ _ F4)|]. split.
  - pose proof (mn_query _ _ _ F4) as Q. cbn [gen_head h_query] in Q. destruct q as [t|]; [exact (proj1 Q)|exact Q].
  - rewrite (mn_headers _ _ _ F4). f_equal. cbn [gen_head h_lines]. apply gen_fields. exact H5.
Qed.
Definition gen_name (i : nat) : bytes := B "some-random-header-name-nobody-cares-about" ++ itoa (Z.of_nat i).
Lemma gen_headers_pairs : forall n, kv_pairs (gen_headers n) = map (fun i => (gen_name i, repeat x62 100)) (seq 0 (n - 1)) ++ [(B "Host", B "localhost")].
Proof.
  intros n. unfold gen_headers. cbn [kv_add kv_pairs]. f_equal.
  assert (G : forall l s, kv_pairs (fold_left (fun s i => kv_add s (B "some-random-header-name-nobody-cares-about" ++ itoa (Z.of_nat i)) (repeat x62 100)) l s)
    = kv_pairs s ++ map (fun i => (gen_name i, repeat x62 100)) l).
  { induction l as [|i l IH]; intros s; cbn [fold_left map]; [rewrite app_nil_r; reflexivity|]. rewrite IH. cbn [kv_add kv_pairs].
    rewrite <- app_assoc. reflexivity. }
  rewrite G. reflexivity.
Qed.
Lemma itoa_inj : forall i j : nat, itoa (Z.of_nat i) = itoa (Z.of_nat j) -> i = j.
Proof.
  intros i j H. rewrite !L_Response2.itoa_nat in H. apply (f_equal dec_number) in H. rewrite !L_Response2.itoa_N_dec in H. injection H as H. lia.
Qed.
Lemma gen_name_in : forall i x, In x (gen_name i) -> x <> x3a /\ x <> CR /\ x <> LF.
Proof.
  intros i x H. unfold gen_name in H. rewrite in_app_iff in H. destruct H as [H|H].
  - vm_compute in H. repeat (destruct H as [ <- |H]; [repeat split; discriminate|]). destruct H.
  - destruct (itoa_digits (Z.of_nat i)) as [_ D]; [lia|]. rewrite Forall_forall in D. specialize (D x H).
    repeat split; intros ->; discriminate D.
Qed.
Lemma gen_good : forall i, good_header (gen_name i, repeat x62 100).
Proof.
  intros i. unfold good_header. cbn [fst snd]. repeat split.
  - intros H. apply gen_name_in in H. destruct H as [H _]. apply H. reflexivity.
  - intros H. apply gen_name_in in H. destruct H as (_ & H & _). apply H. reflexivity.
  - intros H. apply gen_name_in in H. destruct H as (_ & _ & H). apply H. reflexivity.
  - intros H. apply repeat_spec in H. discriminate H.
  - discriminate.
  - intros H. unfold same_key in H. apply (f_equal (fun l => hd x00 l)) in H. vm_compute in H. discriminate H.
Qed.
Lemma gen_headers_ok : forall n, Forall good_header (kv_pairs (gen_headers n)) /\
  List.length (kv_pairs (gen_headers n)) = Nat.max 1 n /\
  last (kv_pairs (gen_headers n)) ([], []) = (B "Host", B "localhost") /\ NoDup (map fst (kv_pairs (gen_headers n))).
Proof.
  intros n. rewrite gen_headers_pairs. split; [|split; [|split]].
  - apply Forall_app. split.
    + apply Forall_forall. intros x Hx. apply in_map_iff in Hx. destruct Hx as (i & <- & _). apply gen_good.
    + constructor; [|constructor]. unfold good_header. cbn [fst snd].
      repeat split; try (intros H; vm_compute in H; repeat (destruct H as [H|H]; [discriminate H|]); exact H); [discriminate|].
      intros H. vm_compute in H. discriminate H.
  - rewrite app_length, map_length, seq_length. cbn [List.length]. lia.
  - apply last_last.
  - rewrite map_app, map_map. cbn [map fst].
    assert (G : NoDup (map gen_name (seq 0 (n - 1)))).
    { apply FinFun.Injective_map_NoDup; [|apply seq_NoDup]. intros i j H. unfold gen_name in H. apply app_inv_head in H. exact (itoa_inj i j H). }
    apply NoDup_rev in G. rewrite <- (rev_involutive (map (fun x : nat => gen_name x) (seq 0 (n - 1)) ++ [B "Host"])).
    apply NoDup_rev. rewrite rev_app_distr. cbn [rev app]. constructor; [|exact G].
    intros H. apply in_rev in H. apply in_map_iff in H. destruct H as (i & H & _).
    apply (f_equal (fun l => hd x00 l)) in H. vm_compute in H. discriminate H.
Qed.
Lemma gen_case : S_Head.fits (cfg_limits (HCfg 50 8192 15) 16384 65536 65536) (gen_head (B "a%20b") (B "a b") (Some (B "x=1")) (kv_pairs (gen_headers 50))) /\
  PctDecodes (B "a%20b") (B "a b") /\
  exists p', feed (HCfg 50 8192 15) (new_parser 16384 65536 65536 new_request) [generate (B "a%20b?x=1") (gen_headers 50)] = (RDone p' [], []) /\
    r_path (p_req p') = B "/a b" /\ kv_len (r_headers (p_req p')) = 50%nat.
Proof.
  split.
  - unfold S_Head.fits. split; [vm_compute; discriminate|]. split; [vm_compute; discriminate|]. split; [vm_compute; discriminate|]. split; [vm_compute; discriminate|].
    split.
    + assert (G : forallb (fun l => is_content_length l || (len (raw_value l) <=? 8192)%Z) (map gen_line (kv_pairs (gen_headers 50))) = true) by (vm_compute; reflexivity).
      rewrite forallb_forall in G. apply Forall_forall. intros l Hl E. specialize (G l Hl). rewrite E in G. cbn [orb] in G. apply Z.leb_le in G. exact G.
    + assert (G : forallb (fun l => negb (S_Head.named (B "transfer-encoding") l || S_Head.named (B "content-encoding") l)) (map gen_line (kv_pairs (gen_headers 50))) = true) by (vm_compute; reflexivity).
      rewrite forallb_forall in G. apply Forall_forall. intros l Hl E. specialize (G l Hl). destruct E as [E|E]; rewrite E in G; [discriminate G|rewrite orb_true_r in G; discriminate G].
  - split.
    + apply PD_char; [discriminate|]. apply (PD_esc x32 x30 2 0 (B "b") (B "b")); [reflexivity|reflexivity|]. repeat (constructor; [discriminate|]). constructor.
    + eexists. vm_compute. repeat split; reflexivity.
Qed.

(* ---- dumped requests ---- *)
Lemma dump_case : exists p b c t,
  feed ex_cfg (new_parser 100 60 60 new_request) [crlf_lines [B "POST /a?x=%31&y HTTP/1.1"; B "Host: h: 1"; B "content-length: 3"; []]] = (RDone p [], []) /\
  Dumpable (p_req p) (Some [(B "x", B "1"); (B "y", B "1")]) /\
  (let '(d, _, _, _) := dump ref_parse 100 (p_req p) b c in
   d = DOk (crlf_lines [B "POST /a?x=1&y=1 HTTP/1.1"; B "Host: h: 1"; B "Content-Length: 3"; []] ++ B "abc") None) /\
  tool_parse (crlf_lines [B "POST /a?x=1&y=1 HTTP/1.1"; B "Host: h: 1"; B "Content-Length: 3"; []] ++ B "abc") = Some (inr t) /\
  t_path t = B "/a?x=1&y=1" /\ t_body t = B "abc" /\ kv_pairs (t_headers t) = [(B "Host", B "h: 1"); (B "Content-Length", B "3")].
Proof.
  destruct (feed ex_cfg (new_parser 100 60 60 new_request) [crlf_lines [B "POST /a?x=%31&y HTTP/1.1"; B "Host: h: 1"; B "content-length: 3"; []]]) as [x rs] eqn:E.
  vm_compute in E. injection E as <- <-.
  eexists. eexists (body_init (new_body (KSize 0 false)) (set_content_length 3 new_request)), (new_client [(B "abc", None)] []), _.
  split; [reflexivity|]. split.
  - constructor; cbn [p_req r_method r_proto r_path r_query r_headers r_content_length].
    + discriminate.
    + discriminate.
    + intros H. vm_compute in H. repeat (destruct H as [H|H]; [discriminate H|]). exact H.
    + apply (QI_some _ (B "x=1&y")); cbn [q_raw].
      * discriminate.
      * split; reflexivity.
      * apply PD_char; [discriminate|]. apply PD_char; [discriminate|]. apply (PD_esc x33 x31 3 1 (B "&y") (B "&y")); [reflexivity|reflexivity|].
        repeat (constructor; [discriminate|]). constructor.
      * apply (QT_more (B "x=1") (B "x", B "1") (B "y")).
        -- intros H. vm_compute in H. repeat (destruct H as [H|H]; [discriminate H|]). exact H.
        -- apply (Piece_pair (B "x") (B "1")); [discriminate|]. intros H. vm_compute in H. repeat (destruct H as [H|H]; [discriminate H|]). exact H.
        -- apply (QT_last (B "y") (B "y", B "1")); [discriminate| |].
           ++ intros H. vm_compute in H. repeat (destruct H as [H|H]; [discriminate H|]). exact H.
           ++ apply (Piece_flag (B "y")). intros H. vm_compute in H. repeat (destruct H as [H|H]; [discriminate H|]). exact H.
    + intros l k v H Hin. injection H as <-. destruct Hin as [Hin|[Hin|[]]]; injection Hin as <- <-;
        (split; intros X; vm_compute in X; repeat (destruct X as [X|X]; [discriminate X|]); exact X).
    + intros k v Hin. vm_compute in Hin. destruct Hin as [Hin|[]]. injection Hin as <- <-.
      split; [|split; [|split]].
      * intros (a & b & X). assert (Y : In x3a (B "Host")) by (change (B "Host") with [x48; x6f; x73; x74]; rewrite X, in_app_iff; right; left; reflexivity).
        vm_compute in Y. repeat (destruct Y as [Y|Y]; [discriminate Y|]). exact Y.
      * intros (a & b & X). assert (Y : In CR (B "Host")) by (change (B "Host") with [x48; x6f; x73; x74]; rewrite X, in_app_iff; right; left; reflexivity).
        vm_compute in Y. repeat (destruct Y as [Y|Y]; [discriminate Y|]). exact Y.
      * intros (a & b & X). assert (Y : In CR (B "h: 1")) by (change (B "h: 1") with [x68; x3a; x20; x31]; rewrite X, in_app_iff; right; left; reflexivity).
        vm_compute in Y. repeat (destruct Y as [Y|Y]; [discriminate Y|]). exact Y.
      * intros X. vm_compute in X. discriminate X.
    + split; [vm_compute; discriminate|reflexivity].
  - split; [vm_compute; reflexivity|]. split; [vm_compute; reflexivity|]. vm_compute. repeat split; reflexivity.
Qed.
Lemma dump_decoded : exists text p dumped r' b' c' t,
  text = B "GET /a%20b HTTP/1.1" ++ CRLF ++ CRLF /\
  feed ex_cfg (new_parser 100 60 60 new_request) [text] = (RDone p [], []) /\
  dump ref_parse 100 (p_req p) (body_init (new_body (KSize 0 false)) (p_req p)) (new_client [] []) = (DOk dumped None, r', b', c') /\
  tool_parse dumped = Some (inr t) /\ r_path (p_req p) = B "/a b" /\ t_path t = B "/a" /\ t_proto t = B "b HTTP/1.1".
Proof.
  eexists. destruct (feed ex_cfg (new_parser 100 60 60 new_request) [B "GET /a%20b HTTP/1.1" ++ CRLF ++ CRLF]) as [x rs] eqn:E.
  assert (E' := E). vm_compute in E'. injection E' as <- <-. eexists _, _, _, _, _, _.
  split; [reflexivity|]. split; [exact E|]. split; [vm_compute; reflexivity|]. split; [vm_compute; reflexivity|]. repeat split.
Qed.
Lemma dump_chunked : exists text p dumped r' b' c',
  text = B "POST / HTTP/1.1" ++ CRLF ++ B "Transfer-Encoding: chunked" ++ CRLF ++ CRLF /\
  feed ex_cfg (new_parser 100 60 60 new_request) [text] = (RDone p [], []) /\
  dump ref_parse 100 (p_req p) (body_init (new_body (KSize 0 false)) (p_req p)) (new_client [(B "3" ++ CRLF ++ B "abc" ++ CRLF ++ B "0" ++ CRLF ++ CRLF, None)] []) = (DOk dumped None, r', b', c') /\
  tool_parse dumped = Some (inl TWrongLength).
Proof.
  eexists. destruct (feed ex_cfg (new_parser 100 60 60 new_request) [B "POST / HTTP/1.1" ++ CRLF ++ B "Transfer-Encoding: chunked" ++ CRLF ++ CRLF]) as [x rs] eqn:E.
  assert (E' := E). vm_compute in E'. injection E' as <- <-. eexists _, _, _, _, _.
  split; [reflexivity|]. split; [exact E|]. split; [vm_compute; reflexivity|]. vm_compute; reflexivity.
Qed.
