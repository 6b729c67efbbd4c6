(* Lemmas: connections with upgrades. *)
From Verif Require Import M_Base M_Status M_Method M_Proto M_KeyValue M_Query M_Request M_Parser M_Client M_Body
  M_Response M_Serializer M_Suit S_KeyValue S_Chunk S_Head S_Parser S_Body S_Response S_Conn S_Upgrade
  L_Base L_Head L_Body L_Body2 L_Body3 L_BodyProps L_Response L_Response2 L_Response3 L_Attach L_Conn L_Conn2 L_Conn3.

Local Arguments client_unread : simpl never.
Local Arguments write_response : simpl never.
Local Arguments pre_write : simpl never.

Lemma announcement_snoc : forall ps p, announcement (ps ++ [p]) = announcement ps ++ [(B "Connection", B "upgrade"); (B "Upgrade", version_of p)].
Proof. intros ps p. unfold announcement. rewrite map_app, concat_app. reflexivity. Qed.
Lemma shown_wish : forall h r, Shows h r -> r_upgrade r = wished h.
Proof. intros h r (r0 & M & V & _). rewrite (sv_upgrade _ _ V), (mn_upgrade _ _ _ M). reflexivity. Qed.
Lemma wants_wish : forall h r, Shows h r -> wants_switch r = match switch_to h with Some _ => true | None => false end.
Proof. intros h r H. unfold wants_switch, switch_to. rewrite (shown_wish h r H). destruct (wished h); reflexivity. Qed.
Lemma switch_wish : forall h p, switch_to h = Some p -> wished h = p /\ p <> PUnknown.
Proof. intros h p. unfold switch_to. destruct (wished h); intros H; try discriminate; injection H as <-; split; (reflexivity || discriminate). Qed.

(* what is written, with something in the buffer before *)
Lemma write_sent_behind : forall fbs defs past s p r f c res s' c' f',
  Served fbs defs past s -> distinct_names defs -> p <> PUnknown -> writes_ok c -> Sendable fbs f ->
  write_response p r f s c = (res, s', c', f') ->
  exists first rest, Sent defs past p r f (first :: rest) /\ cl_out c' = cl_out c ++ (s_buff s ++ first) :: rest /\
    ((res = WOk /\ (S_Conn.stays_open p r f \/ r_upgrade r <> PUnknown)) \/
     (res = WClose /\ ~ (S_Conn.stays_open p r f \/ r_upgrade r <> PUnknown))).
Proof.
  intros fbs defs past s p r f c res s' c' f' Hs Hd Hp Hw Hsd H.
  assert (Hatt : forall a, f_att f = Some a -> exists first rest, Sent defs past p r f (first :: rest) /\ cl_out c' = cl_out c ++ (s_buff s ++ first) :: rest /\ res = WOk).
  { intros a Ha. destruct (method_eqb (r_method r) HEAD) eqn:Em.
    - assert (Hm : r_method r = HEAD) by (destruct (r_method r); try discriminate; reflexivity).
      destruct (head_attachment _ _ _ _ _ _ _ _ _ _ _ _ _ Hs Hd Hp Ha Hm Hw H) as [E1 E2].
      eexists _, _. split; [eapply St_head; eassumption|]. split; [exact E2|exact E1].
    - assert (Hm : r_method r <> HEAD) by (intros X; rewrite X in Em; discriminate).
      destruct Hsd as [Hn|a' pieces more Ha' Hz He Hf|a' pieces last more Ha' Hz He Hf]; [congruence| |]; rewrite Ha in Ha'; injection Ha' as <-.
      + destruct (plain_attachment _ _ _ _ _ _ _ _ _ _ _ _ _ _ _ _ Hs Hd Hp Ha Hz He Hm Hf Hw H) as [E1 E2].
        eexists _, _. split; [eapply St_sized; eassumption|]. split; [exact E2|exact E1].
      + destruct (chunked_attachment _ _ _ _ _ _ _ _ _ _ _ _ _ _ _ _ Hs Hd Hp Ha Hz He Hm Hf Hw H) as (E1 & ws & E2 & E3).
        eexists _, _. split; [eapply St_stream; eassumption|]. split; [exact E2|exact E1]. }
  destruct (f_att f) as [a|] eqn:Ha.
  - destruct (Hatt a eq_refl) as (first & rest & S1 & S2 & S3). exists first, rest. split; [exact S1|]. split; [exact S2|]. left. split; [exact S3|].
    left. left. congruence.
  - destruct (plain_shape _ _ _ _ _ _ _ _ _ _ _ _ Hs Hd Hp Ha (writes_ok_head c Hw) H) as [E1 _].
    eexists _, []. split; [apply St_plain; exact Ha|]. split; [exact E1|].
    destruct (proto_eqb (r_upgrade r) PUnknown) eqn:Eu.
    + assert (Hu : r_upgrade r = PUnknown) by (destruct (r_upgrade r); try discriminate; reflexivity).
      destruct (persistence _ _ _ _ _ _ _ _ _ Ha Hu (writes_ok_head c Hw) H) as [[-> | ->] K].
      * left. split; [reflexivity|]. left. right. apply K. reflexivity.
      * right. split; [reflexivity|]. intros [[X|X]|X]; [congruence| |congruence]. apply K in X. discriminate.
    + assert (Hu : r_upgrade r <> PUnknown) by (intros E; rewrite E in Eu; discriminate).
      rewrite (persistence_upgrade _ _ _ _ _ _ _ _ _ Ha Hu (writes_ok_head c Hw) H). left. split; [reflexivity|]. right. exact Hu.
Qed.

Section Serve.
Variable CS : Type.
Variable cparse : CS -> bytes -> bool -> CS * (bytes * bytes * option cerr).
Variable encoded : bool -> bytes -> bytes -> Prop.
Variable fresh : CS -> Prop.
Variable inside : CS -> bool -> bytes -> bytes -> Prop.
Hypothesis dec_ok : DecoderOk CS cparse encoded fresh inside.
Variable max : Z.
Hypothesis max_uint : (max < two64)%Z.
Variable cfg : hcfg.
Variables umax kmax vmax fbs : Z.
Variable defs : list entry.
Hypothesis defs_distinct : distinct_names defs.
Variable W : Type.
Variable on_request : W -> request -> hprog W.
Variable on_error : W -> request -> http_error -> hprog W.
Notation conn := (M_Suit.conn CS W).
Notation serve := (M_Suit.serve cparse max cfg on_request on_error).
Notation close_with := (M_Suit.close_with cparse max on_error).
Notation on_head := (M_Suit.on_head cparse max on_request on_error).
Notation lim := (cfg_limits cfg umax kmax vmax).

(* the 101 response, rendered ahead *)
Lemma announce : forall past ups (st : conn) h r,
  Amid umax kmax vmax fbs defs fresh past ups st -> Shows h r -> h_proto h <> PUnknown ->
  exists s pre version past' ups' text,
    (if wants_switch r then
      match resp_header (B "Connection") [B "upgrade"] (set_code 101%N (k_pre st)) with
      | Some f1 =>
          match resp_header (B "Upgrade") [trim_last (proto_string (r_proto r))] f1 with
          | Some f2 => (pre_write (r_proto r) f2 (k_ser st), f2, r_upgrade r)
          | None => (k_ser st, k_pre st, r_upgrade r)
          end
      | None => (k_ser st, k_pre st, r_upgrade r)
      end
     else (k_ser st, k_pre st, r_proto r)) = (s, pre, version) /\
    version <> PUnknown /\ Served fbs defs past' s /\ s_buff s = text /\
    (exists c, pre = set_rheaders (announcement ups') (set_code c new_response)) /\
    (forall r' f first rest, Sent defs past' version r' f (first :: rest) ->
       Replies defs past ups h r' f ((text ++ first) :: rest) (past' ++ names f) ups') /\
    (forall r' f, S_Conn.stays_open version r' f \/ wished h <> PUnknown <-> goes_on h r' f).
Proof.
  intros past ups st h r [[B1 B2 B3 B4 B5 B6] (c & Hc)] Sh Hp.
  assert (Hpr : r_proto r = h_proto h). { destruct Sh as (r0 & M & V & _). rewrite (sv_proto _ _ V), (mn_proto _ _ _ M). reflexivity. }
  rewrite (wants_wish h r Sh). destruct (switch_to h) as [p|] eqn:Es.
  - destruct (switch_wish h p Es) as [Ew Epu].
    rewrite Hc.
    change (resp_header (B "Connection") [B "upgrade"] (set_code 101%N (set_rheaders (announcement ups) (set_code c new_response))))
      with (Some (set_rheaders (announcement ups ++ [(B "Connection", B "upgrade")]) (set_code 101%N new_response))).
    cbv beta iota.
    set (pre := set_rheaders (announcement (ups ++ [h_proto h])) (set_code 101%N new_response)).
    assert (Eh : resp_header (B "Upgrade") [trim_last (proto_string (r_proto r))]
      (set_rheaders (announcement ups ++ [(B "Connection", B "upgrade")]) (set_code 101%N new_response)) = Some pre).
    { unfold pre. rewrite Hpr, announcement_snoc.
      replace (trim_last (proto_string (h_proto h))) with (version_of (h_proto h)) by (destruct (h_proto h); try reflexivity; congruence).
      unfold resp_header. replace (equal_fold (B "Upgrade") (B "content-type")) with false by reflexivity.
      replace (equal_fold (B "Upgrade") (B "transfer-encoding")) with false by reflexivity. cbn [map f_headers set_rheaders]. rewrite <- app_assoc. reflexivity. }
    rewrite Eh, Hpr. clear Eh.
    pose proof (pre_write_text _ _ _ _ (h_proto h) pre B3 defs_distinct Hp) as E1. rewrite B4 in E1. cbn [app] in E1.
    pose proof (Sv_pre _ _ _ _ (h_proto h) pre B3) as Hs2.
    eexists _, _, _, _, (ups ++ [h_proto h]), _. split; [reflexivity|].
    rewrite (shown_wish h r Sh), Ew. split; [exact Epu|]. split; [exact Hs2|]. split; [reflexivity|].
    split; [exists 101%N; reflexivity|]. split.
    + intros r' f first rest S. rewrite E1. change (names pre) with (map fst (announcement (ups ++ [h_proto h]))) in *.
      apply (Rp_switch defs past ups h r' f p first rest Es). exact S.
    + intros r' f. unfold goes_on. rewrite ?Ew. split; intros _; right; exact Epu.
  - eexists _, _, _, past, ups, _. split; [reflexivity|]. rewrite Hpr. split; [exact Hp|]. split; [exact B3|]. split; [reflexivity|].
    split; [exists c; exact Hc|]. split.
    + intros r' f first rest S. rewrite B4. cbn [app]. apply Rp_same; assumption.
    + intros r' f. reflexivity.
Qed.

Lemma one_exchange : forall past ups (st : conn) q rest,
  (forall w r, Shows (q_head q) r -> Ordinary fbs (on_request w r)) ->
  Amid umax kmax vmax fbs defs fresh past ups st -> SoundRequest encoded lim max q -> stream (k_client st) = wire q ++ rest ->
  exists n resp w1 r' out past' ups' st1, Answered on_request (k_world st) q resp w1 r' /\
    Replies defs past ups (q_head q) r' (not_nil resp) out past' ups' /\
    cl_out (k_client st1) = cl_out (k_client st) ++ out /\ k_world st1 = w1 /\
    ((goes_on (q_head q) r' (not_nil resp) /\
      Amid umax kmax vmax fbs defs fresh past' ups' st1 /\ stream (k_client st1) = rest /\
      forall fuel, serve (n + fuel)%nat st = serve fuel st1) \/
     (~ goes_on (q_head q) r' (not_nil resp) /\ forall fuel, serve (n + fuel)%nat st = close_with EndWrite st1)).
Proof.
  intros past ups st q rest ordinary Ha G Hs. pose proof G as [G1 G2 G4 G5]. pose proof Ha as [[B1 B2 B3 B4 B5 B6] _].
  unfold wire in Hs. rewrite <- app_assoc in Hs. rewrite <- reads_concat in Hs.
  destruct (segmentation cfg umax kmax vmax _ _ _ _ B1 G1 G2 Hs) as (p' & extra & rs & F1 & F2 & F3 & F4 & F5).
  destruct (serve_done CS cparse max cfg W on_request on_error _ st p' extra rs eq_refl F1) as (n & c1 & R1 & R2 & R3 & R4).
  destruct (shows cfg umax kmax vmax _ _ G1 G2 B2) as [Sh Qf]. rewrite <- F5 in Sh, Qf.
  set (r := p_req p') in *.
  destruct G1 as (Gm & Gp & _).
  destruct (announce past ups st (q_head q) r Ha Sh Gp) as (s & pre & version & past' & ups' & text & An & Vu & Sv & Bt & Pr & Rp & Go).
  assert (Hst : stream (client_unread c1 extra) = q_wire q ++ rest).
  { rewrite stream_unread by exact R2. rewrite <- (reads_concat c1), R1. exact F2. }
  destruct (body_phase CS cparse encoded fresh inside dec_ok max max_uint fbs W q r (k_body st) (client_unread c1 extra) rest (on_request (k_world st) r) G4 G5 Sh Qf B5 Hst (ordinary _ _ Sh))
    as (resp & w1 & r' & b' & c' & K1 & K2 & K3 & K4 & K5 & K6 & K7 & K8).
  rewrite (shown_wish _ _ Sh) in K5.
  destruct (write_response version r' (not_nil resp) s c') as [[[res s'] c''] f''] eqn:Ew.
  assert (Hwok : writes_ok c').
  { unfold writes_ok in *. destruct K3 as [_ ->]. unfold client_unread. cbn [cl_wres]. destruct R3 as [_ ->]. exact B6. }
  assert (Hsd : Sendable fbs (not_nil resp)). { destruct resp as [f|]; [apply K7; reflexivity|apply Sd_plain; reflexivity]. }
  destruct (write_sent_behind _ _ _ _ _ _ _ _ _ _ _ _ Sv defs_distinct Vu Hwok Hsd Ew) as (first & restw & S1 & S2 & S3).
  rewrite Bt in S2. rewrite K5 in S3.
  destruct (write_response_input _ _ _ _ _ _ _ _ _ Ew) as [I1 I2].
  assert (Hout : cl_out c'' = cl_out (k_client st) ++ (text ++ first) :: restw).
  { rewrite S2. destruct K3 as [-> _]. unfold client_unread. cbn [cl_out]. destruct R3 as [-> _]. reflexivity. }
  assert (Hoh : on_head (set_k_parser p' (set_k_client c1 st)) extra =
    match res with
    | WPanic => inl (EndPanic, Conn (set_p_req r' p') s' c'' b' pre w1)
    | WStuck => inl (EndStuck, Conn (set_p_req r' p') s' c'' b' pre w1)
    | WClose | WNet => inl (close_with EndWrite (Conn (set_p_req r' p') s' c'' b' pre w1))
    | WOk => let '(res2, r2, b2, c2) := request_clear_full cparse max r' b' c'' in
             match res2 with
             | Some None => inr (Conn (set_p_req r2 p') s' c2 b2 pre w1)
             | Some (Some _) => inl (close_with EndClear (Conn (set_p_req r2 p') s' c2 b2 pre w1))
             | None => inl (EndStuck, Conn (set_p_req r2 p') s' c2 b2 pre w1)
             end
    end).
  { unfold M_Suit.on_head. cbn [k_parser set_k_parser set_k_client k_client k_ser k_body k_pre k_world]. fold r. rewrite An.
    rewrite K1, K4, Ew. reflexivity. }
  pose proof (Rp r' (not_nil resp) first restw S1) as Rp1.
  destruct S3 as [[-> So] | [-> So]]; rewrite Go in So.
  - destruct (K8 c'' I1) as (b3 & c3 & D1 & D2 & D3 & D4).
    rewrite D1 in Hoh. exists (S n), resp, w1, r', ((text ++ first) :: restw), (past' ++ names (not_nil resp)), ups', (Conn (set_p_req (request_clear r') p') s' c3 b3 pre w1).
    split; [exists r; split; [exact Sh|exact K2]|]. split; [exact Rp1|]. cbn [k_client k_world].
    split; [destruct D4 as [-> _]; exact Hout|]. split; [reflexivity|]. left. split; [exact So|]. split; [|split; [exact D2|]].
    + split; [|exact Pr]. constructor; cbn [k_parser k_ser k_body k_client].
      * exact F3.
      * right. exists r'. cbn [set_p_req p_req]. repeat split; assumption.
      * eapply Sv_write; [exact Sv|exact Ew].
      * eapply write_clears. exact Ew.
      * exact D3.
      * unfold writes_ok in *. destruct D4 as [_ ->]. apply I2. exact Hwok.
    + intros fuel. rewrite R4, Hoh. reflexivity.
  - exists (S n), resp, w1, r', ((text ++ first) :: restw), (past' ++ names (not_nil resp)), ups', (Conn (set_p_req r' p') s' c'' b' pre w1).
    split; [exists r; split; [exact Sh|exact K2]|]. split; [exact Rp1|]. split; [exact Hout|]. split; [reflexivity|].
    right. split; [exact So|]. intros fuel. rewrite R4, Hoh. reflexivity.
Qed.

Lemma exchange : forall reqs past ups (st : conn) tail,
  (forall q w r, In q reqs -> Shows (q_head q) r -> Ordinary fbs (on_request w r)) ->
  Amid umax kmax vmax fbs defs fresh past ups st -> Forall (SoundRequest encoded lim max) reqs ->
  stream (k_client st) = concat (map wire reqs) ++ tail ->
  exists n outs closed st1, Exchange defs (Answered on_request) reqs (k_world st) past ups outs (k_world st1) closed /\
    cl_out (k_client st1) = cl_out (k_client st) ++ outs /\
    match closed with
    | None => (exists past' ups', Amid umax kmax vmax fbs defs fresh past' ups' st1) /\ stream (k_client st1) = tail /\
              forall fuel, serve (n + fuel)%nat st = serve fuel st1
    | Some _ => forall fuel, serve (n + fuel)%nat st = close_with EndWrite st1
    end.
Proof.
  induction reqs as [|q reqs IH]; intros past ups st tail Ho HB Hg Hs.
  - exists 0%nat, [], None, st. split; [apply Ex_end|]. split; [symmetry; apply app_nil_r|].
    split; [eauto|]. split; [exact Hs|]. reflexivity.
  - inversion Hg as [|? ? G Hg']; subst. cbn [map concat] in Hs. rewrite <- app_assoc in Hs.
    destruct (one_exchange past ups st q _ (fun w r => Ho q w r (or_introl eq_refl)) HB G Hs)
      as (n & resp & w1 & r' & out & past' & ups' & st1 & O1 & O3 & O4 & O5 & [(P1 & P2 & P3 & P4) | (P1 & P2)]).
    + destruct (IH _ _ st1 tail (fun q0 w r Hi => Ho q0 w r (or_intror Hi)) P2 Hg' P3) as (m & outs & closed & st2 & Q1 & Q2 & Q3).
      exists (n + m)%nat, (out ++ outs), closed, st2. split; [rewrite O5 in Q1; eapply Ex_open; eassumption|].
      split; [rewrite Q2, O4, app_assoc; reflexivity|]. destruct closed as [l|].
      * intros fuel. rewrite <- Nat.add_assoc, P4. apply Q3.
      * destruct Q3 as (Q3 & Q4 & Q5). split; [exact Q3|]. split; [exact Q4|]. intros fuel. rewrite <- Nat.add_assoc, P4. apply Q5.
    + exists n, out, (Some reqs), st1. split; [rewrite O5; eapply Ex_close; eassumption|]. split; [exact O4|]. exact P2.
Qed.

Theorem whole_exchange : forall reqs past ups (st : conn) tail,
  (forall q w r, In q reqs -> Shows (q_head q) r -> Ordinary fbs (on_request w r)) ->
  Amid umax kmax vmax fbs defs fresh past ups st -> Forall (SoundRequest encoded lim max) reqs -> Unfinished lim tail ->
  stream (k_client st) = concat (map wire reqs) ++ tail ->
  exists n outs closed st1, Exchange defs (Answered on_request) reqs (k_world st) past ups outs (k_world st1) closed /\
    cl_out (k_client st1) = cl_out (k_client st) ++ outs /\
    forall fuel, (n <= fuel)%nat ->
      serve fuel st = close_with (match closed with None => EndRead | Some _ => EndWrite end) st1.
Proof.
  intros reqs past ups st tail Ho HB Hg (h & more & U1 & U2 & U3 & U4) Hs.
  destruct (exchange _ _ _ _ _ Ho HB Hg Hs) as (n & outs & closed & st1 & C1 & C2 & C3). destruct closed as [l|].
  - exists n, outs, (Some l), st1. split; [exact C1|]. split; [exact C2|]. intros fuel Hf.
    replace fuel with (n + (fuel - n))%nat by lia. apply C3.
  - destruct C3 as ((past' & ups' & HB1 & _) & C4 & C5). destruct HB1 as [B1 _ _ _ _ _].
    assert (Hpre : concat (reads_of (k_client st1)) ++ more = render_head h) by (rewrite reads_concat, C4; exact U4).
    destruct (prefix_pending cfg umax kmax vmax _ h _ more B1 U1 U2 Hpre U3) as (p' & Hf).
    destruct (serve_pending CS cparse max cfg W on_request on_error _ st1 p' eq_refl Hf) as (m & c2 & M1 & M2).
    exists (n + S m)%nat, outs, None, (set_k_parser p' (set_k_client c2 st1)).
    split; [exact C1|]. split; [cbn; destruct M1 as [-> _]; exact C2|]. intros fuel Hfu.
    replace fuel with (n + (S m + (fuel - (n + S m))))%nat by lia. rewrite C5, M2. reflexivity.
Qed.
End Serve.

Lemma exchange_answers : forall W defs (A A' : W -> req -> option fields -> W -> request -> Prop) reqs w past ups outs w' closed,
  (forall w q resp w1 r', In q reqs -> A w q resp w1 r' -> A' w q resp w1 r') ->
  Exchange defs A reqs w past ups outs w' closed -> Exchange defs A' reqs w past ups outs w' closed.
Proof.
  intros W defs A A' reqs w past ups outs w' closed HA H.
  induction H as [w past ups|q reqs w past ups resp w1 r' out past' ups' outs w2 closed H1 H2 H3 _ IH|q reqs w past ups resp w1 r' out past' ups' H1 H2 H3].
  - apply Ex_end.
  - eapply Ex_open; [apply HA; [left; reflexivity|exact H1]|exact H2|exact H3|]. apply IH. intros. apply HA; [right; assumption|assumption].
  - eapply Ex_close; [apply HA; [left; reflexivity|exact H1]|exact H2|exact H3].
Qed.
Lemma no_wish : forall h, last_value (B "upgrade") (h_lines h) = None -> wished h = PUnknown /\ switch_to h = None.
Proof. intros h E. assert (W : wished h = PUnknown) by (unfold wished; rewrite E; reflexivity). split; [exact W|]. unfold switch_to. rewrite W. reflexivity. Qed.
Lemma exchange_plain : forall W defs (on_request : W -> request -> hprog W) reqs w past ups outs w' closed,
  Forall (fun q => last_value (B "upgrade") (h_lines (q_head q)) = None) reqs ->
  Exchange defs (Answered on_request) reqs w past ups outs w' closed <-> Conversation defs on_request reqs w past outs w' closed.
Proof.
  intros W defs on_request reqs w past ups outs w' closed Hn. split.
  - intros H. induction H as [w past ups|q reqs w past ups resp w1 r' out past' ups' outs w2 closed (r & H1 & H2) H3 H4 _ IH|q reqs w past ups resp w1 r' out past' ups' (r & H1 & H2) H3 H4].
    + apply Cv_end.
    + inversion Hn as [|? ? N1 N2]; subst. destruct (no_wish _ N1) as [E1 E2]. inversion H3; subst; [|congruence].
      eapply Cv_open; try eassumption; [|apply IH; exact N2]. destruct H4 as [H4|H4]; [exact H4|congruence].
    + inversion Hn as [|? ? N1 N2]; subst. destruct (no_wish _ N1) as [E1 E2]. inversion H3; subst; [|congruence].
      eapply Cv_close; try eassumption. intros X. apply H4. left. exact X.
  - intros H. induction H as [w past|q reqs w past r resp w1 r' out outs w2 closed H1 H2 H3 H4 _ IH|q reqs w past r resp w1 r' out H1 H2 H3 H4].
    + apply Ex_end.
    + inversion Hn as [|? ? N1 N2]; subst. destruct (no_wish _ N1) as [E1 E2].
      eapply Ex_open; [exists r; split; eassumption|apply Rp_same; eassumption|left; exact H4|apply IH; exact N2].
    + inversion Hn as [|? ? N1 N2]; subst. destruct (no_wish _ N1) as [E1 E2].
      eapply Ex_close; [exists r; split; eassumption|apply Rp_same; eassumption|]. intros [X|X]; [exact (H4 X)|congruence].
Qed.
Lemma new_amid : forall CS W (fresh : CS -> Prop) umax kmax vmax fbs defs enc cs c (w : W), fresh cs -> writes_ok c ->
  Amid umax kmax vmax fbs defs fresh [] [] (new_conn umax kmax vmax fbs defs enc cs c w).
Proof. intros CS W fresh umax kmax vmax fbs defs enc cs c w Hf Hw. split; [apply new_between; assumption|]. exists 200%N. reflexivity. Qed.
