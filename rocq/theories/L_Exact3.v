(* More lemmas behind P_Exact2.v. *)
From Verif Require Import M_Base M_Status M_Uri M_KeyValue M_Query M_CookieJar M_HeaderValue M_Proto M_Client M_Request M_Body
  M_Parser M_Response M_Serializer M_Suit M_Router M_Middleware M_Bundled S_Head S_Parser S_KeyValue S_Query S_Body S_Split S_Verdict S_Virtual S_Router S_Bundled S_Exact S_Exact2 L_Exact2 L_Base L_Uri L_Loose L_KeyValue L_Query L_Query2 L_Values L_Head L_ToolParse L_Verdict L_Bundled.
Local Arguments cut : simpl never.

Lemma transfer_exactly : forall cfg umax kmax vmax p reads h rest v, Ready umax kmax vmax p -> NamedHead (concat reads) -> (len (start_part (concat reads)) <= umax)%Z ->
  HeadSays (cfg_limits cfg umax kmax vmax) (concat reads) (VTaken h rest) -> last_value (B "transfer-encoding") (h_lines h) = Some v ->
  exists q extra l, fst (feed cfg p reads) = RDone q extra /\ Elements v l /\
    if (Z.of_nat (List.length l) <=? c_max_enc_tokens cfg)%Z
    then enc_transfer (r_encoding (p_req q)) = l /\ (enc_chunked (r_encoding (p_req q)) = true <-> exists t, In t l /\ equal_fold t (B "chunked") = true)
    else enc_transfer (r_encoding (p_req q)) = [] /\ enc_chunked (r_encoding (p_req q)) = false.
Proof.
  intros cfg umax kmax vmax p reads h rest v HR HN HL HS Hv.
  destruct (verdict cfg umax kmax vmax _ _ HS p reads HR eq_refl HN HL) as (q & extra & E1 & _ & T).
  exists q, extra, (list_elements v). split; [exact E1|]. split; [apply elements_exactly; reflexivity|].
  pose proof (ta_transfer _ _ _ _ T) as T1. pose proof (ta_chunked _ _ _ _ T) as T2. rewrite Hv in T1, T2. cbn [option_map or_default] in T1, T2.
  unfold capped_chunked, mentions_chunked in T2. unfold capped in T1, T2. change (lim_tokens (cfg_limits cfg umax kmax vmax)) with (c_max_enc_tokens cfg) in *.
  destruct (Z.of_nat (List.length (list_elements v)) <=? c_max_enc_tokens cfg)%Z; [|split; [exact T1|exact T2]].
  split; [exact T1|]. rewrite T2. apply existsb_exists.
Qed.

(* ---------------------------------------------------------------- C64 *)
Lemma https_exactly : forall W port (next : handler W) w r name, env_encryption (r_env r) = enc_plain -> UpToColon (hd [] (hosts_of r)) name ->
  https_only_mw [] port next w r = HRet (Some (match name with
    | [] => Fields 400%N [] (B "text/html") [] [] (B "no Host header") [] None
    | _ => answer_with 301%N (B "Location") (B "https://" ++ name ++ B ":" ++ port ++ asked_path r)
    end)) w.
Proof.
  intros W port next w r name He Hu. destruct name as [|c name].
  - destruct (hosts_of r) as [|h hs] eqn:Eh; [apply https_no_host; assumption|]. cbn [hd] in Hu.
    unfold https_only_mw, https_only. rewrite He. cbn [N.eqb negb].
    assert (Ek : kv_value (r_headers r) (B "host") = h) by (rewrite first_host, Eh; reflexivity).
    rewrite Ek. assert (Er : remove_port h = []).
    { unfold remove_port. destruct Hu as [_ [->|(x & ->)]]; [reflexivity|]. change ([] ++ x3a :: x) with ([] ++ x3a :: x). rewrite cut_app by (intros []). reflexivity. }
    rewrite Er. reflexivity.
  - destruct (hosts_of r) as [|h hs] eqn:Eh; [destruct Hu as [_ [H|(x & H)]]; discriminate|]. cbn [hd] in Hu.
    apply (https_plain W port next w r h hs (c :: name) He Eh). destruct Hu as [H1 H2]. split; [discriminate|]. split; assumption.
Qed.

(* ---------------------------------------------------------------- C56 *)
Lemma reads_step : forall c d ds, reads_of c = d :: ds -> exists c1, client_read c = ((d, None), c1) /\ reads_of c1 = ds.
Proof.
  intros [net p out w] d ds H. unfold reads_of, client_read in *. cbn [cl_pending cl_net] in *. destruct p as [|x p].
  - cbn [kept app] in H. destruct net as [|[d0 [ne|]] net]; cbn [arrivals] in H; try discriminate. injection H as -> <-. eexists. split; reflexivity.
  - cbn [kept app] in H. injection H as <- <-. eexists. split; reflexivity.
Qed.
Lemma callback_calls : forall CS cparse max n ds l, Pieces n ds l -> forall (b : body CS) c cb seen out ok f,
  bd_eof b = false -> bd_chunked b = false -> bd_left b = Z.of_nat n -> (Z.of_nat n <= max)%Z -> reads_of c = ds -> (List.length ds < f)%nat ->
  Calls cb seen l out ok -> exists b' c', callback_loop cparse max f cb seen b c = (out, if ok then Some (Some BEof) else None, b', c').
Proof.
  intros CS cparse max n ds l H. induction H as [n d ds Hn|n d ds l Hn H IH]; intros b c cb seen out ok f He Hc Hl Hm Hr Hf HC;
    (destruct f as [|f]; [cbn in Hf; lia|]); cbn [callback_loop]; unfold retrieve; rewrite He, Hc; unfold plain_read; rewrite Hl;
    destruct (reads_step c d ds Hr) as (c1 & E1 & R1).
  - destruct (Z.eqb_spec (Z.of_nat n) 0) as [X|_]; [lia|]. rewrite E1. destruct (Z.gtb_spec (Z.of_nat n) max) as [X|_]; [lia|].
    unfold len. destruct (Z.geb_spec (Z.of_nat (List.length d)) (Z.of_nat n)) as [_|X]; [|lia]. rewrite Nat2Z.id. cbn [snd berr_eof].
    inversion HC as [|? ? X|? ? ? ? X Y]; subst; rewrite X; [eexists _, _; reflexivity|]. inversion Y; subst. eexists _, _; reflexivity.
  - destruct (Z.eqb_spec (Z.of_nat n) 0) as [X|_]; [lia|]. rewrite E1. destruct (Z.gtb_spec (Z.of_nat n) max) as [X|_]; [lia|].
    unfold len. destruct (Z.geb_spec (Z.of_nat (List.length d)) (Z.of_nat n)) as [X|_]; [lia|]. cbn [snd berr_eof].
    inversion HC as [|? ? X|? ? ? ? X Y]; subst; rewrite X; [eexists _, _; reflexivity|].
    apply IH; [exact He|exact Hc|cbn [bd_left set_left]; lia|lia|reflexivity|cbn in Hf; lia|exact Y].
Qed.
Lemma reads_fuel : forall c, (List.length (reads_of c) < loop_fuel c)%nat.
Proof.
  intros [net p out w]. unfold reads_of, loop_fuel. cbn [cl_pending cl_net]. rewrite app_length.
  assert (K : (List.length (kept p) <= List.length p)%nat) by (destruct p; cbn; lia).
  assert (A : (List.length (arrivals net) <= net_size net)%nat).
  { clear. induction net as [|[d [ne|]] net IH]; cbn [arrivals net_size fold_right List.length fst]; try lia. unfold net_size in IH. lia. }
  lia.
Qed.
Lemma pieces_exist : forall ds n t, concat ds = t -> (0 < n <= List.length t)%nat -> exists l, Pieces n ds l /\ concat l = firstn n t.
Proof.
  induction ds as [|d ds IH]; intros n t <- Hn; cbn [concat] in *; [cbn in Hn; lia|].
  destruct (Nat.le_gt_cases n (List.length d)) as [H|H].
  - exists [firstn n d]. split; [apply Pc_last; lia|]. cbn [concat]. rewrite app_nil_r, firstn_app. replace (n - List.length d)%nat with 0%nat by lia. cbn [firstn]. rewrite app_nil_r. reflexivity.
  - rewrite app_length in Hn. destruct (IH (n - List.length d)%nat _ eq_refl ltac:(lia)) as (l & P & C). exists (d :: l). split; [apply Pc_more; assumption|].
    cbn [concat]. rewrite C, firstn_app, (firstn_all2 (n:=n) d) by lia. reflexivity.
Qed.
Lemma reads_stream : forall c, concat (reads_of c) = stream c.
Proof.
  intros [net p out w]. unfold reads_of, stream. cbn [cl_pending cl_net]. rewrite concat_app. f_equal; [destruct p; cbn; [reflexivity|rewrite app_nil_r; reflexivity]|].
  induction net as [|[d [ne|]] net IH]; cbn; try reflexivity. f_equal. exact IH.
Qed.
Lemma calls_exist : forall cb l seen, exists out ok, Calls cb seen l out ok.
Proof.
  intros cb l. induction l as [|p l IH]; intros seen; [eexists _, _; constructor|]. destruct (cb (seen ++ [p])) eqn:E.
  - destruct (IH (seen ++ [p])) as (out & ok & H). exists out, ok. apply Ca_more; assumption.
  - eexists _, _. apply Ca_refused. exact E.
Qed.
Lemma callback_exactly : forall CS cparse max (b : body CS) r c text rest cb,
  FixedRequest max r text -> text <> [] -> stream c = text ++ rest ->
  exists l out ok b' c', Pieces (List.length text) (reads_of c) l /\ concat l = text /\ Calls cb [] l out ok /\
    body_callback cparse max cb (body_init b r) c = (out, if ok then Some (Some BEof) else None, b', c').
Proof.
  intros CS cparse max b r c text rest cb (H1 & H2 & H3 & H4) Hne Hs.
  assert (L : (0 < List.length text <= List.length (stream c))%nat) by (rewrite Hs, app_length; destruct text; [congruence|cbn; lia]).
  destruct (pieces_exist (reads_of c) (List.length text) (stream c) (reads_stream c) L) as (l & HP & HC). destruct (calls_exist cb l []) as (out & ok & HK).
  destruct (callback_calls CS cparse max _ _ _ HP (body_init b r) c cb [] out ok (loop_fuel c)) as (b' & c' & E); try assumption.
  - unfold body_init. rewrite H1. reflexivity.
  - unfold body_init. rewrite H1. reflexivity.
  - unfold body_init. rewrite H1. cbn [bd_left]. rewrite H2. unfold len, wrap_u64. apply Z.mod_small. unfold len, max_alloc in H4. unfold two64. lia.
  - reflexivity.
  - apply reads_fuel.
  - exists l, out, ok, b', c'. split; [exact HP|]. split; [|split; assumption]. rewrite HC, Hs, firstn_app, firstn_all, Nat.sub_diag. cbn [firstn]. apply app_nil_r.
Qed.
Lemma callback_nothing : forall CS cparse max (b : body CS) r c cb, enc_chunked (r_encoding r) = false -> r_content_length r = 0%Z ->
  exists b', body_callback cparse max cb (body_init b r) c = ([[]], if cb [[]] then Some (Some BEof) else None, b', c).
Proof.
  intros CS cparse max b r c cb H1 H2. unfold body_callback, loop_fuel. cbn [callback_loop]. unfold retrieve, body_init. rewrite H1. cbn [bd_eof bd_chunked]. unfold plain_read. cbn [bd_left].
  rewrite H2. change (wrap_u64 0 =? 0)%Z with true. cbn. eexists. reflexivity.
Qed.
