(* Lemmas behind P_Files.v: the file server on a connection. *)
From Verif Require Import M_Base M_Config M_Status M_Method M_Proto M_KeyValue M_Query M_Request M_Parser M_Client M_Body
  M_Response M_Serializer M_Suit M_Path M_Radix M_Router M_Static M_Bundled M_Tools M_Resource M_Escape M_ServeHttp1 M_Examples
  S_Static S_KeyValue S_Chunk S_Head S_Parser S_Body S_Response S_Conn S_Split S_Routes S_Router S_Serve S_ServeHttp1 S_Examples S_Files
  L_Base L_Path L_Radix L_Router5 L_Router6 L_Conn3 L_Serve L_Static L_Examples L_Examples2 L_Files.

(* ---- which file is asked for ---- *)
Lemma last_byte_snoc : forall (l : bytes) c, last_byte (l ++ [c]) = Some c.
Proof. intros l c. induction l as [|x l IH]; [reflexivity|]. cbn [app last_byte]. destruct (l ++ [c]) eqn:E; [destruct l; discriminate|exact IH]. Qed.
Lemma dir_trailing : forall root dir w, DirOf root dir -> SlashPath root -> with_trailing_sep root = Some w -> w = dir ++ [SLASH].
Proof.
  intros root dir w H HS Hw. unfold with_trailing_sep in Hw. rewrite (slash_path_sep root HS) in Hw. destruct H as [-> |[-> H]].
  - rewrite last_byte_snoc, beq_refl in Hw. congruence.
  - destruct (last_byte dir) as [c|]; [|discriminate]. destruct (Byte.eqb c SLASH) eqn:E; [|congruence]. apply beq_eq in E. congruence.
Qed.
Lemma asked : forall prefix root dir pp b path, new_path prefix root = Some pp -> SlashPath prefix -> prefix = [SLASH] \/ last_byte prefix <> Some SLASH ->
  DirOf root dir -> SlashPath root -> Prefix prefix path ->
  exists file, Asks prefix dir path file /\ snd (static_step pp b path) = if is_safe file then SOpen file else SNotFound.
Proof.
  intros prefix root dir pp b path Hn HP Hl Hd HR (s & ->). destruct (new_path_ok _ _ _ Hn) as (Hok & Hp & Hw). rewrite (history_irrelevant pp b _ Hok).
  apply (dir_trailing _ _ _ Hd HR) in Hw. unfold static_file. rewrite Hw. unfold with_trailing_sep in Hp. rewrite (slash_path_sep prefix HP) in Hp.
  destruct Hl as [-> |Hl].
  - cbn in Hp. injection Hp as Hp. rewrite <- Hp. cbn [List.length app Nat.leb skipn]. rewrite <- app_assoc. cbn [app].
    exists (dir ++ SLASH :: s). split; [apply As_root; reflexivity|reflexivity].
  - assert (Hr : prefix <> [SLASH]) by (intros ->; apply Hl; reflexivity).
    destruct (last_byte prefix) as [c|] eqn:El; [|discriminate]. assert (Ec : Byte.eqb c SLASH = false) by (apply beq_neq; congruence). rewrite Ec in Hp. injection Hp as Hp.
    rewrite <- Hp, !app_length. cbn [List.length]. destruct s as [|x s].
    + cbn [List.length]. destruct (Nat.leb_spec (List.length prefix + 1) (List.length prefix + 0)) as [L|_]; [lia|].
      destruct (Nat.leb_spec (List.length prefix + 1 - (List.length prefix + 0)) (List.length dir + 1)) as [_|L]; [|lia].
      replace (List.length dir + 1 - (List.length prefix + 1 - (List.length prefix + 0)))%nat with (List.length dir) by lia.
      rewrite (take_exact dir [SLASH] (List.length dir) eq_refl). exists dir. split; [apply As_itself; [exact Hr|apply app_nil_r]|reflexivity].
    + cbn [List.length]. destruct (Nat.leb_spec (List.length prefix + 1) (List.length prefix + S (List.length s))) as [_|L]; [|lia].
      assert (E : skipn (List.length prefix + 1) (prefix ++ x :: s) = s).
      { rewrite skipn_app, skipn_all2 by lia. replace (List.length prefix + 1 - List.length prefix)%nat with 1%nat by lia. reflexivity. }
      rewrite E, <- app_assoc. cbn [app]. exists (dir ++ SLASH :: s). split; [|reflexivity].
      destruct (Byte.eqb x SLASH) eqn:Ex; [apply beq_eq in Ex; subst x; apply As_below; [exact Hr|reflexivity]|].
      apply (As_neighbour _ _ _ x); [exact Hr|reflexivity|]. intros ->. rewrite beq_refl in Ex. discriminate.
Qed.
Lemma asks_one : forall prefix dir path a b, Asks prefix dir path a -> Asks prefix dir path b -> a = b.
Proof.
  intros prefix dir path a b Ha Hb. destruct Ha as [ra H1 H2|ra H1 H2|H1 H2|c ra H1 H2 H3]; destruct Hb as [rb I1 I2|rb I1 I2|I1 I2|d rb I1 I2 I3]; try congruence.
  all: subst path; try (apply app_inv_head in I2; congruence).
  all: try (apply (f_equal (@List.length byte)) in I2; rewrite app_length in I2; cbn [List.length] in I2; lia).
Qed.

Lemma in_concat_nil : forall (ps : list bytes) y d, concat ps = [] -> In (y :: d) ps -> False.
Proof.
  induction ps as [|p ps IH]; intros y d H Hi; [destruct Hi|]. cbn [concat] in H. apply app_eq_nil in H. destruct H as [-> H]. destruct Hi as [Hi|Hi]; [discriminate|exact (IH y d H Hi)].
Qed.
Lemma reader_same : forall ps ps' l l' m m', reader_of ps l ++ m = reader_of ps' l' ++ m' -> ps = ps' /\ l = l'.
Proof.
  induction ps as [|p ps IH]; intros [|p' ps'] l l' m m' H; cbn in H.
  - injection H as -> _. split; reflexivity.
  - discriminate.
  - discriminate.
  - injection H as -> H. destruct (IH ps' l l' m m' H) as [-> ->]. split; reflexivity.
Qed.

Lemma bare_sent : forall p r c out, (c =? 101)%N = false -> Sent std_defs [] p r (Fields c [] (B "text/html") [] [] [] [] None) out ->
  concat out = bare_page p (itoa_N c ++ B " " ++ status_text c).
Proof.
  intros p r c out Hc H. inversion H as [HA E|a HA|a ps m HA|a ps l m ws HA]; try discriminate HA. cbn [concat f_body]. rewrite app_nil_r.
  unfold response_text, sent_reason, sent_fields, bare_page, lines. cbn [f_code f_headers f_ctype f_te f_cookies f_body f_status app map names]. rewrite Hc. cbn [andb].
  change (remaining [] std_defs) with std_defs. unfold std_defs. cbn [map concat app field_text fst snd].
  rewrite ?app_nil_r, <- !app_assoc. destruct (method_eqb (r_method r) HEAD); reflexivity.
Qed.
Lemma bare_404 : forall p r out, Sent std_defs [] p r (Fields 404%N [] (B "text/html") [] [] [] [] None) out -> concat out = bare_page p (B "404 Not Found").
Proof. intros p r out H. rewrite (bare_sent p r 404%N out eq_refl H). reflexivity. Qed.
Lemma bare_500 : forall p r out, Sent std_defs [] p r (Fields 500%N [] (B "text/html") [] [] [] [] None) out -> concat out = bare_page p (B "500 Internal Server Error").
Proof. intros p r out H. rewrite (bare_sent p r 500%N out eq_refl H). reflexivity. Qed.
Lemma bare_stays : forall p r c h, p = h_proto h -> r_connection r = connection_of h ->
  (stays_open p r (Fields c [] (B "text/html") [] [] [] [] None) <-> false = true \/ keeps_open h = true).
Proof. intros p r c h E Hr. rewrite (keeps p r (Fields c [] (B "text/html") [] [] [] [] None) h eq_refl E Hr). split; [auto|intros [C|C]; [discriminate|exact C]]. Qed.
Lemma attached_sent : forall p r t ev size, let f := Fields 200%N [] t [] [] [] [] (Some (Att ev size true 0)) in
  forall out, Sent std_defs [] p r f out -> exists body,
  concat out = lines [version_of p ++ B " 200 OK"; B "Accept-Encodings: identity"; B "Content-Type: " ++ t;
                      if (0 <? size)%Z then B "Content-Length: " ++ itoa size else B "Transfer-Encoding: chunked"; []] ++ body /\
  (r_method r = HEAD -> body = []) /\
  (r_method r <> HEAD -> (0 < size)%Z -> exists ps m, ev = reader_of ps [] ++ m /\ body = concat ps) /\
  (r_method r <> HEAD -> (size <= 0)%Z -> exists ps l m, ev = reader_of ps l ++ m /\ Chunked body (concat ps ++ l)).
Proof.
  intros p r t ev size f out H.
  assert (T : forall body, response_text (version_of p) (itoa_N (f_code f)) (sent_reason f) (attachment_fields std_defs [] f (Att ev size true 0)) body =
    lines [version_of p ++ B " 200 OK"; B "Accept-Encodings: identity"; B "Content-Type: " ++ t;
           if (0 <? size)%Z then B "Content-Length: " ++ itoa size else B "Transfer-Encoding: chunked"; []] ++ body).
  { intros body. unfold response_text, attachment_fields, lines, f. cbn [f_code f_headers f_ctype f_te f_cookies f_body f_status app map names at_size].
    change (remaining [] std_defs) with std_defs. unfold std_defs. change (itoa_N 200) with (B "200").
    match goal with |- context [sent_reason ?x] => change (sent_reason x) with (B "OK") end. cbn [map concat app]. unfold field_text. cbn [fst snd].
    destruct (0 <? size)%Z; cbn [map concat app fst snd]; rewrite ?app_nil_r, <- !app_assoc; reflexivity. }
  inversion H as [HA E|a HA HM E|a ps m HA HZ HE HM E|a ps l m ws HA HZ HE HM HC E]; [discriminate HA| | |]; injection HA as <-; cbn [at_events at_size] in *.
  - exists []. cbn [concat]. rewrite T, ?app_nil_r. split; [reflexivity|]. split; [reflexivity|]. split; intros C; destruct (C HM).
  - exists (concat ps). cbn [concat]. rewrite T, ?app_nil_r. split; [reflexivity|]. split; [intros C; destruct (HM C)|]. split; [intros _ _; exists ps, m; auto|intros _ C; lia].
  - exists (concat ws). cbn [concat]. rewrite T, ?app_nil_r. split; [reflexivity|]. split; [intros C; destruct (HM C)|]. split; [intros _ C; lia|]. intros _ _. exists ps, l, m. auto.
Qed.

(* ---- the application ---- *)
Section Server.
Variable W : Type.
Variables (pget : W -> pbuf) (pput : pbuf -> W -> W) (fs : bytes -> file_res).
Variables prefix root dir : bytes.
Variable o : rop W.
Hypothesis Ho : static_call prefix root pget pput (fun _ p => resp_file p (fs p) new_response) [] = Some o.
Hypothesis Hc : path_clean prefix = prefix.
Hypothesis HP : SlashPath prefix.
Hypothesis Hl : prefix = [SLASH] \/ last_byte prefix <> Some SLASH.
Hypothesis Hd : DirOf root dir.
Hypothesis HR : SlashPath root.
Let os : list (list nat * rop W) := [([], o)].

Lemma server_caught : exists pp, new_path prefix root = Some pp /\ caught os = [(prefix, static_handler pp pget pput (fun _ p => resp_file p (fs p) new_response))] /\
  registered os = [] /\ aliases os = [].
Proof.
  unfold static_call in Ho. destruct (new_path prefix root) as [pp|] eqn:E; [|discriminate]. injection Ho as <-. exists pp. split; [reflexivity|]. split; [|split; reflexivity].
  unfold os. cbn [caught flat_map snd fst app]. unfold full_prefix, prefix_below, path_join, chain. cbn [chain_below].
  destruct prefix as [|c l]; [discriminate E|]. rewrite Hc. reflexivity.
Qed.
Lemma server_static : ~ HasParams os.
Proof. destruct server_caught as (pp & _ & _ & E & _). intros (p & m & h & t & n & H & _). rewrite E in H. destruct H. Qed.
Lemma server_plain : PlainAliases os.
Proof.
  destruct server_caught as (pp & _ & _ & _ & E). split; [|rewrite E; split; [constructor|intros f t []]].
  intros a mu [H|[]]. injection H as _ H. unfold static_call in Ho. destruct (new_path prefix root); [|discriminate]. congruence.
Qed.
Lemma server_errors : forall c, (c = 404%N -> error_choice os c = default_all_errors) /\ (c = 405%N -> error_choice os c = default_method_not_allowed) /\
  (c <> 405%N -> error_choice os c = default_all_errors).
Proof.
  unfold static_call in Ho. destruct (new_path prefix root) as [pp|] eqn:E; [|discriminate]. injection Ho as <-. intros c. unfold os.
  split; [intros ->; reflexivity|]. split; [intros ->; reflexivity|]. intros H. unfold error_choice. cbn.
  destruct (N.eqb_spec c 405) as [C|_]; [destruct (H C)|]. destruct (c =? AllErrors)%N; reflexivity.
Qed.

Hypothesis Hfs : forall p, Readable (response_buff std) (fs p).
Lemma holds_sendable : forall p, Sendable (response_buff std) (resp_file p (fs p) new_response).
Proof.
  intros p. unfold resp_file. destruct (Hfs p) as [-> |[-> |[-> |(c & pieces & more & -> & Hcon & HF)]]]; try (apply Sd_plain; reflexivity).
  cbn [resp_try_file]. destruct c as [|x c].
  - apply (Sd_stream _ _ (Att (reader_of pieces [] ++ more) (len []) true 0) pieces [] more); [reflexivity|cbn; lia|reflexivity|].
    apply Forall_app. split; [|constructor; [split; cbn; lia|constructor]]. apply Forall_forall. intros d Hi.
    assert (d = []) as -> by (destruct d as [|y d]; [reflexivity|exfalso; apply (in_concat_nil pieces _ _ Hcon Hi)]). split; cbn; lia.
  - eapply (Sd_sized _ _ _ pieces more); [reflexivity|cbn [at_size]; unfold len; cbn [List.length]; lia|reflexivity|exact HF].
Qed.
Lemma server_ordinary : OrdinaryApp (response_buff std) os.
Proof.
  destruct server_caught as (pp & Hn & E1 & E2 & E3). split; [|split].
  - intros p m h H. rewrite E2 in H. destruct H.
  - intros p h H w r Hpre. rewrite E1 in H. destruct H as [H|[]]. injection H as <- <-.
    pose proof (no_panic prefix root pp (pget (fst w)) (r_path r) Hn (caught_long_enough _ _ _ prefix _ Hn (le_n _) Hpre)) as NP. unfold static_handler.
    destruct (static_step pp (pget (fst w)) (r_path r)) as [b [file| |]]; [| |destruct (NP eq_refl)].
    + apply Ta_ret. intros f Hf. injection Hf as <-. apply holds_sendable.
    + apply Ta_ret. intros f Hf. injection Hf as <-. apply Sd_plain. reflexivity.
  - intros c [-> | ->] w r; [rewrite (proj1 (server_errors _) eq_refl); apply ordinary_all|rewrite (proj1 (proj2 (server_errors _)) eq_refl); apply ordinary_405].
Qed.
Lemma server_silent : Silent os.
Proof.
  intros w r. rewrite (proj2 (proj2 (server_errors (he_code ErrCloseConnection)))) by discriminate. eexists. reflexivity.
Qed.

(* the answer to one request *)
Lemma server_answer : forall q r h r1 w resp w1 r' out past, Shows (q_head q) r -> Dispatch os r h r1 ->
  HRun (more_of (q_head q)) (h w r1) r1 (fresh_view (q_text q)) resp w1 r' -> Sent std_defs past (h_proto (q_head q)) r' (not_nil resp) out -> past = [] ->
  names (not_nil resp) = [] /\
  exists file, FileText (response_buff std) fs prefix dir (h_proto (q_head q)) (h_method (q_head q)) (normalize (h_decoded (q_head q))) file (concat out) /\
    (stays_open (h_proto (q_head q)) r' (not_nil resp) <-> file = true \/ keeps_open (q_head q) = true).
Proof.
  intros q r h r1 w resp w1 r' out past HS HD HRun Hsent ->. destruct (shows_sees _ _ HS) as [S1 S2 S3 _ _]. destruct server_caught as (pp & Hn & E1 & E2 & E3).
  assert (NP : forall r0 R r2, ~ Place os r0 R r2).
  { intros r0 R r2 H. destruct H as [_ (m & g & H)|p t parts ps H|H]; [rewrite E2 in H; destruct H|destruct (server_static H)|destruct (server_static H)]. }
  assert (NF : forall r0, r0 = set_path (normalize (r_path r)) r -> r_method (set_error (EHttp ErrNotFound) r0) = h_method (q_head q) /\ r_connection (set_error (EHttp ErrNotFound) r0) = connection_of (q_head q)).
  { intros r0 ->. cbn. split; assumption. }
  destruct HD as [r0 R r1 m h a HA HL|r0 R r1 a HA HL|r0 R r1 a HA HL|r0 p h ps HA HN _ Hps Hca Hpre Hlong|r0 ps HA HN _ Hps Hca]; try (destruct (NP _ _ _ HL)).
  - apply (no_aliases _ _ _ _ E3) in HA. rewrite E1 in Hca. destruct Hca as [Hca|[]]. injection Hca as <- <-.
    rewrite HA in *. cbn [r_path set_path] in *. rewrite S2 in *. set (path := normalize (h_decoded (q_head q))) in *.
    unfold static_handler in HRun. cbn [r_path set_params set_path] in HRun.
    destruct (asked prefix root dir pp (pget (fst w)) path Hn HP Hl Hd HR Hpre) as (file & HAsk & Hstep).
    destruct (static_step pp (pget (fst w)) path) as [b res]. cbn [snd] in Hstep. subst res.
    destruct (is_safe file) eqn:Esafe.
    + apply is_safe_dots in Esafe. destruct HRun as [v' HRun]. inversion HRun; subst. cbn [not_nil] in *.
      destruct (Hfs file) as [EF|[EF|[EF|(c & HH)]]]; unfold resp_file in Hsent |- *.
      * rewrite EF in Hsent |- *. cbn [resp_try_file resp_error] in Hsent |- *. change (set_code (he_code ErrNotFound) new_response) with (Fields 404%N [] (B "text/html") [] [] [] [] None) in Hsent |- *.
        split; [reflexivity|]. exists false. split; [rewrite (bare_404 _ _ _ Hsent); eapply Ft_none; eauto|apply bare_stays; [reflexivity|exact S3]].
      * rewrite EF in Hsent |- *. cbn [resp_try_file resp_error] in Hsent |- *. change (set_code (he_code ErrInternalServerError) new_response) with (Fields 500%N [] (B "text/html") [] [] [] [] None) in Hsent |- *.
        split; [reflexivity|]. exists false. split; [rewrite (bare_500 _ _ _ Hsent); eapply Ft_broken; eauto|apply bare_stays; [reflexivity|exact S3]].
      * rewrite EF in Hsent |- *. cbn [resp_try_file resp_error] in Hsent |- *. change (set_code (he_code ErrNotFound) new_response) with (Fields 404%N [] (B "text/html") [] [] [] [] None) in Hsent |- *.
        split; [reflexivity|]. exists false. split; [rewrite (bare_404 _ _ _ Hsent); eapply Ft_none; eauto|apply bare_stays; [reflexivity|exact S3]].
      * pose proof HH as (pieces & more & EF & Hcon & HF). rewrite EF in Hsent |- *. cbn [resp_try_file] in Hsent |- *. fold (file_type file) in *.
        pose proof (proj1 (file_type_media file _) eq_refl) as HMT.
        match type of Hsent with Sent _ _ _ _ ?f _ => change f with (Fields 200%N [] (file_type file) [] [] [] [] (Some (Att (reader_of pieces [] ++ more) (len c) true 0))) in * end.
        split; [reflexivity|]. exists true. split; [|split; [intros _; left; reflexivity|intros _; left; discriminate]].
        destruct (attached_sent _ _ _ _ _ _ Hsent) as (body & -> & B1 & B2 & B3). cbn [r_method set_params set_path] in B1, B2, B3. rewrite S1 in *.
        destruct c as [|x c].
        { change (0 <? len [])%Z with false. cbv iota.
          assert (HB : h_method (q_head q) <> HEAD -> Chunked body []).
          { intros HM. destruct (B3 HM) as (ps' & l & m & EE & HC); [cbn; lia|]. apply reader_same in EE. destruct EE as [<- <-]. rewrite Hcon in HC. exact HC. }
          destruct (h_method (q_head q)) eqn:EM.
          3: { rewrite (B1 eq_refl). apply (Ft_empty _ _ _ _ _ HEAD _ file (file_type file) (B "0" ++ CRLF ++ CRLF) HAsk Esafe HH HMT). apply Ch_last; [discriminate|reflexivity]. }
          all: match goal with |- FileText _ _ _ _ _ ?m _ _ _ => exact (Ft_empty _ _ _ _ _ m _ file (file_type file) body HAsk Esafe HH HMT (HB ltac:(discriminate))) end. }
        { assert (0 < len (x :: c))%Z as HZ by (unfold len; cbn [List.length]; lia). rewrite (proj2 (Z.ltb_lt _ _) HZ).
          assert (HB : h_method (q_head q) <> HEAD -> body = x :: c).
          { intros HM. destruct (B2 HM HZ) as (ps' & m & EE & ->). apply reader_same in EE. destruct EE as [<- _]. exact Hcon. }
          destruct (h_method (q_head q)) eqn:EM.
          3: { rewrite (B1 eq_refl). apply (Ft_file _ _ _ _ _ HEAD _ file (x :: c) (file_type file) HAsk Esafe HH); [discriminate|exact HMT]. }
          all: rewrite (HB ltac:(discriminate)).
          all: match goal with |- FileText _ _ _ _ _ ?m _ _ _ => exact (Ft_file _ _ _ _ _ m _ file (x :: c) (file_type file) HAsk Esafe HH ltac:(discriminate) HMT) end. }
    + destruct HRun as [v' HRun]. inversion HRun; subst. cbn [not_nil resp_error] in *.
      change (set_code (he_code ErrNotFound) new_response) with (Fields 404%N [] (B "text/html") [] [] [] [] None) in Hsent |- *.
      split; [reflexivity|]. exists false. split; [|apply bare_stays; [reflexivity|exact S3]]. rewrite (bare_404 _ _ _ Hsent). apply (Ft_dots _ _ _ _ _ _ _ file HAsk).
      intros C. apply is_safe_dots in C. congruence.
  - apply (no_aliases _ _ _ _ E3) in HA. rewrite (proj1 (server_errors _) eq_refl) in HRun. apply run_404 in HRun. destruct HRun as (-> & -> & ->). cbn [not_nil] in *.
    split; [reflexivity|]. exists false. rewrite HA in *. cbn [r_path set_path] in *. rewrite S2 in *.
    split; [|apply bare_stays; [reflexivity|exact S3]]. rewrite (bare_404 _ _ _ Hsent). apply Ft_elsewhere. eapply Hca. rewrite E1. left. reflexivity.
Qed.

Lemma server_talk : forall reqs w past outs w2 closed, Dialogue std_defs os reqs w past outs w2 closed -> past = [] ->
  exists texts o, FileTalk (fun q => FileText (response_buff std) fs prefix dir (h_proto (q_head q)) (h_method (q_head q)) (normalize (h_decoded (q_head q)))) reqs texts o /\
    concat outs = concat texts /\ (closed = None <-> o = true).
Proof.
  intros reqs w past outs w2 closed H. induction H as [w past|q reqs w past r h r1 resp w1 r' out outs w2 closed HS HD HRn HO HK HG IH|q reqs w past r h r1 resp w1 r' out HS HD HRn HO HK]; intros ->.
  - exists [], true. split; [constructor|]. split; [reflexivity|]. split; reflexivity.
  - destruct (server_answer q r h r1 w resp w1 r' out [] HS HD HRn HO eq_refl) as (HNm & file & HT & HSt). destruct IH as (texts & b & I1 & I2 & I3); [rewrite HNm; reflexivity|].
    exists (concat out :: texts), b. split; [apply (Fk_next _ q reqs file); [exact HT|apply HSt; exact HK|exact I1]|]. split; [rewrite concat_app; cbn [concat]; rewrite I2; reflexivity|exact I3].
  - destruct (server_answer q r h r1 w resp w1 r' out [] HS HD HRn HO eq_refl) as (_ & file & HT & HSt).
    exists [concat out], false. destruct file; [destruct HK; apply HSt; left; reflexivity|]. split.
    + apply Fk_last; [exact HT|]. destruct (keeps_open (q_head q)); [destruct HK; apply HSt; right; reflexivity|reflexivity].
    + split; [cbn [concat]; rewrite app_nil_r; reflexivity|split; discriminate].
Qed.
End Server.
