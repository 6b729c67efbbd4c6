(* Lemmas: requests whose chunked body does not come, on a connection. *)
From Verif Require Import M_Base M_Status M_Method M_Proto M_KeyValue M_Query M_Request M_Parser M_Client M_Body
  M_Response M_Serializer M_Suit M_Path M_Radix M_Router S_KeyValue S_Chunk S_Head S_Parser S_Body S_Response S_Split S_Verdict S_Arrive S_Conn S_Iso S_Routes S_Router S_Serve S_Upgrade S_Talk S_Missing S_Sync S_Ends S_Broken
  L_Base L_Head L_Body L_Body2 L_Body3 L_BodyProps L_Response L_Response2 L_Response3 L_Attach L_ParserProps L_Router L_Router2 L_Router4 L_Router5 L_Router6 L_Router7 L_Conn L_Conn2 L_Conn3 L_Iso L_Upgrade L_Verdict L_Serve L_Arrive6 L_Talk L_Talk2 L_Talk3 L_Talk4 L_Missing L_Missing2 L_Broken.

Local Arguments client_unread : simpl never.
Local Arguments write_response : simpl never.
Local Arguments pre_write : simpl never.

Section Serve.
Variable CS : Type.
Variable cparse : CS -> bytes -> bool -> CS * (bytes * bytes * option cerr).
Variable encoded : bool -> bytes -> bytes -> Prop.
Variable fresh : CS -> Prop.
Variable begun : CS -> bool -> bytes -> bytes -> Prop.
Hypothesis honest : DecoderHonest encoded CS cparse fresh begun.
Variable max : Z.
Hypothesis max_ok : (0 <= max < two64)%Z.
Variable cfg : hcfg.
Variables umax kmax vmax fbs : Z.
Hypothesis umax_ok : (0 <= umax)%Z.
Variable defs : list entry.
Hypothesis defs_distinct : distinct_names defs.
Variable W : Type.
Variable on_request : W -> request -> hprog W.
Variable on_error : W -> request -> http_error -> hprog W.
Notation conn := (M_Suit.conn CS W).
Notation serve := (M_Suit.serve cparse max cfg on_request on_error).
Notation close_with := (M_Suit.close_with cparse max on_error).
Notation on_head := (M_Suit.on_head cparse max on_request on_error).
Notation lim := (cfg_limits cfg umax kmax vmax).

Lemma body_breaks : forall hung r rest b c (h : hprog W), Breaks encoded max r rest -> fresh (bd_cs b) ->
  Gone hung (cl_net c) -> stream c = rest -> r_hijacked r = false -> QueryFresh (r_query r) -> Ordinary fbs h ->
  exists resp w r' b' c' told, run_handler cparse max h r (body_init b r) c = HDone resp w r' b' c' /\
    BreakHandled encoded max (enc_trailer (r_encoding r)) hung h r rest resp w r' told /\ L_Conn.kept c c' /\
    r_hijacked r' = false /\ r_upgrade r' = r_upgrade r /\ QueryFresh (r_query r') /\ (forall f, resp = Some f -> Sendable fbs f) /\
    forall c2, same_input c' c2 -> exists x r2 b3 c3, request_clear_full cparse max r' b' c2 = (Some x, r2, b3, c3) /\ L_Conn.kept c2 c3 /\
      (x = None -> told = true \/ reads_of c3 = []).
Proof.
  intros hung r rest b c h (L1 & L2) Hf Hg Hs Hj Hq Ho. set (tr := enc_trailer (r_encoding r)) in *.
  assert (R0 : CRep CS begun max tr rest hung (body_init b r) c broken_view).
  { unfold body_init. rewrite L1. constructor; cbn; auto; try discriminate. split; [reflexivity|]. cbn [bd_eof bd_trailer bd_received bd_cs]. split; [reflexivity|]. split; [reflexivity|]. split; [exact Hg|].
    split; [unfold len; cbn; lia|]. split; [reflexivity|]. exists []. split; [symmetry; exact Hs|]. apply (ds_start _ _ _ _ _ (dh_sound _ _ _ _ _ honest)). exact Hf. }
  assert (L2' : forall w t v, rest = w ++ v -> encoded tr w t -> (max < len t)%Z) by exact L2.
  destruct (ctame_ok encoded CS cparse fresh begun honest max max_ok tr rest hung L2' W (CanBeSent fbs) false h Ho r (body_init b r) c _ R0 Hj Hq) as (o & r' & b' & c' & v' & K1 & K2 & K3 & K4 & K5 & K6 & K7 & K8).
  destruct o as [resp w|]; cbn [ended allowed] in K1, K2; [|discriminate]. exists resp, w, r', b', c', (match c_state v' with Refused => true | _ => false end).
  split; [exact K1|]. split; [exists v'; split; [exact K3|destruct (c_state v'); split; congruence]|]. split; [exact K5|]. split; [exact K6|]. split; [exact K7|]. split; [exact K8|]. split; [exact K2|].
  intros c2 Hi. destruct (canswer_ok encoded CS cparse fresh begun honest max max_ok tr rest hung L2' ODiscard b' c2 v' (crep_moved CS begun max tr rest hung _ _ _ _ Hi K4)) as (o & b3 & c3 & v3 & A1 & A2 & A3 & A4).
  pose proof (op_kept _ _ _ _ _ _ _ _ _ A1) as Kp. cbn [body_op] in A1. destruct (body_discard cparse max b' c2) as [[x b1] c1] eqn:E. injection A1 as <- <- <-.
  unfold request_clear_full. rewrite E. destruct x as [x|]; [|discriminate A4]. destruct x as [e|].
  - exists (Some e), r', b1, c1. split; [reflexivity|]. split; [exact Kp|discriminate].
  - exists None, (request_clear r'), b1, c1. split; [reflexivity|]. split; [exact Kp|]. intros _.
    destruct (c_state v') eqn:Es; [|left; reflexivity|]; right; destruct A3 as [[_ A3] _ _ _]; inversion A2; subst; cbn [c_state] in *; try congruence; apply A3.
Qed.

Lemma broken_turn : forall past ups (st : conn) h rest,
  (forall w r, Heard lim h r -> Ordinary fbs (on_request w r)) ->
  Amid umax kmax vmax fbs defs fresh past ups st -> HeadHeard lim (reads_of (k_client st)) (VTaken h rest) ->
  exists r, Heard lim h r /\ forall hung, Gone hung (cl_net (k_client st)) -> Breaks encoded max r rest ->
  exists n resp r' out past' ups' st1 told, BreakHandled encoded max (enc_trailer (r_encoding r)) hung (on_request (k_world st) r) r rest resp (k_world st1) r' told /\
    Replies defs past ups (read_as h) r' (not_nil resp) out past' ups' /\ cl_out (k_client st1) = cl_out (k_client st) ++ out /\
    ((exists e, In e [EndWrite; EndClear; EndRead] /\ (e = EndWrite <-> ~ goes_on (read_as h) r' (not_nil resp)) /\
       forall fuel, (n <= fuel)%nat -> serve fuel st = close_with e st1) \/
     (told = true /\ goes_on (read_as h) r' (not_nil resp) /\ forall fuel, serve (n + fuel)%nat st = serve fuel st1)).
Proof.
  intros past ups st h rest ordinary Ha HV. pose proof Ha as [HB _]. pose proof HB as [B1 B2 B3 B4 B5 B6].
  pose proof (head_follow cfg umax kmax vmax umax_ok _ _ HV (k_parser st) B1) as (p' & extra & F0 & F2 & _).
  destruct (feed cfg (k_parser st) (reads_of (k_client st))) as [res rs] eqn:F1. cbn [fst snd] in F0, F2. subst res.
  pose proof (taken_heard _ _ _ _ _ _ _ _ _ _ _ _ _ _ _ _ _ umax_ok HB HV F1) as Sh.
  destruct (between_clean _ _ _ _ _ _ _ _ _ _ HB) as [Q0 _].
  destruct (done_ready _ _ _ _ _ _ _ _ _ B1 Q0 F1) as [F3 Qf].
  set (r := p_req p') in *. exists r. split; [exact Sh|]. intros hung Hg HL.
  destruct (serve_done_gone CS cparse max cfg W on_request on_error hung _ st p' extra rs eq_refl Hg F1) as (n & c1 & R1 & R2 & R3 & R5 & R4).
  destruct (heard_enc _ _ _ Sh) as (Sp & Su & Sj).
  destruct (announce_heard CS fresh umax kmax vmax fbs defs defs_distinct W past ups st (read_as h) r Ha Sp Su (taken_version _ _ _ _ _ _ _ HV)) as (s & pre & version & past' & ups' & txt & An & Vu & Sv & Bt & Pr & Rp & Go).
  assert (Hst : stream (client_unread c1 extra) = rest).
  { rewrite stream_unread by exact R2. rewrite <- (reads_concat c1), R1. exact F2. }
  destruct (body_breaks hung r rest (k_body st) (client_unread c1 extra) (on_request (k_world st) r) HL B5 R5 Hst Sj Qf (ordinary _ _ Sh))
    as (resp & w1 & r' & b' & c' & told & K1 & K2 & K3 & K4 & K5 & K6 & K7 & K8).
  rewrite Su in K5.
  destruct (write_response version r' (not_nil resp) s c') as [[[res s'] c''] f''] eqn:Ew.
  assert (Hwok : writes_ok c').
  { unfold writes_ok in *. destruct K3 as [_ ->]. unfold client_unread. cbn [cl_wres]. destruct R3 as [_ ->]. exact B6. }
  assert (Hsd : Sendable fbs (not_nil resp)). { destruct resp as [f|]; [apply K7; reflexivity|apply Sd_plain; reflexivity]. }
  destruct (write_sent_behind _ _ _ _ _ _ _ _ _ _ _ _ Sv defs_distinct Vu Hwok Hsd Ew) as (first & restw & S1 & S2 & S3).
  rewrite Bt in S2. rewrite K5 in S3.
  destruct (write_response_input _ _ _ _ _ _ _ _ _ Ew) as [I1 I2].
  assert (Hout : cl_out c'' = cl_out (k_client st) ++ (txt ++ first) :: restw).
  { rewrite S2. destruct K3 as [-> _]. unfold client_unread. cbn [cl_out]. destruct R3 as [-> _]. reflexivity. }
  assert (Hoh : on_head (set_k_parser p' (set_k_client c1 st)) extra =
    match res with
    | WPanic => inl (EndPanic, Conn (set_p_req r' p') s' c'' b' pre w1)
    | WStuck => inl (EndStuck, Conn (set_p_req r' p') s' c'' b' pre w1)
    | WClose | WNet => inl (close_with EndWrite (Conn (set_p_req r' p') s' c'' b' pre w1))
    | WOk => let '(res2, r2, b2, c2) := request_clear_full cparse max r' b' c'' in
             match res2 with
             | Some None => inr (Conn (set_p_req r2 p') s' c2 b2 pre w1)
             | Some (Some _) => inl (close_with EndClear (Conn (set_p_req r2 p') s' c2 b2 pre w1))
             | None => inl (EndStuck, Conn (set_p_req r2 p') s' c2 b2 pre w1)
             end
    end).
  { unfold M_Suit.on_head. cbn [k_parser set_k_parser set_k_client k_client k_ser k_body k_pre k_world]. fold r. rewrite An.
    rewrite K1, K4, Ew. reflexivity. }
  pose proof (Rp r' (not_nil resp) first restw S1) as Rp1.
  destruct S3 as [[-> So] | [-> So]]; rewrite Go in So.
  - destruct (K8 c'' I1) as (x & r2 & b3 & c3 & D1 & D2 & D3). rewrite D1 in Hoh. destruct x as [e|].
    + exists (S n), resp, r', ((txt ++ first) :: restw), (past' ++ names (not_nil resp)), ups', (Conn (set_p_req r2 p') s' c3 b3 pre w1), told. cbn [k_client k_world].
      split; [exact K2|]. split; [exact Rp1|]. split; [destruct D2 as [-> _]; exact Hout|]. left. exists EndClear. split; [cbn; auto|]. split; [split; [discriminate|intros N; exfalso; exact (N So)]|].
      intros fuel Hf. replace fuel with (S n + (fuel - S n))%nat by lia. rewrite R4, Hoh. reflexivity.
    + destruct (D3 eq_refl) as [Et|Er].
      * exists (S n), resp, r', ((txt ++ first) :: restw), (past' ++ names (not_nil resp)), ups', (Conn (set_p_req r2 p') s' c3 b3 pre w1), told. cbn [k_client k_world].
        split; [exact K2|]. split; [exact Rp1|]. split; [destruct D2 as [-> _]; exact Hout|]. right. split; [exact Et|]. split; [exact So|].
        intros fuel. rewrite R4, Hoh. reflexivity.
      * destruct (serve_pending CS cparse max cfg W on_request on_error [] (Conn (set_p_req r2 p') s' c3 b3 pre w1) (set_p_req r2 p') Er eq_refl) as (m & c4 & P1 & P2).
        exists (S n + S m)%nat, resp, r', ((txt ++ first) :: restw), (past' ++ names (not_nil resp)), ups', (set_k_parser (set_p_req r2 p') (set_k_client c4 (Conn (set_p_req r2 p') s' c3 b3 pre w1))), told.
        cbn [k_client k_world set_k_parser set_k_client]. split; [exact K2|]. split; [exact Rp1|].
        split; [destruct P1 as [-> _]; cbn [k_client]; destruct D2 as [-> _]; exact Hout|]. left. exists EndRead. split; [cbn; auto|]. split; [split; [discriminate|intros N; exfalso; exact (N So)]|].
        intros fuel Hf. replace fuel with (S n + (S m + (fuel - (S n + S m))))%nat by lia. rewrite R4, Hoh. apply P2.
  - exists (S n), resp, r', ((txt ++ first) :: restw), (past' ++ names (not_nil resp)), ups', (Conn (set_p_req r' p') s' c'' b' pre w1), told. cbn [k_client k_world].
    split; [exact K2|]. split; [exact Rp1|]. split; [exact Hout|]. left. exists EndWrite. split; [cbn; auto|]. split; [split; [intros _; exact So|reflexivity]|].
    intros fuel Hf. replace fuel with (S n + (fuel - S n))%nat by lia. rewrite R4, Hoh. reflexivity.
Qed.
End Serve.

Lemma broken_routed : forall W (os : list (list nat * rop W)) x, Running os x -> PlainAliases os ->
  (HasParams os -> forall f t, In (f, t) (aliases os) -> t <> []) ->
  forall encoded max lim h r hung w rest resp w1 r' told, h_decoded h <> [] -> Heard lim h r ->
  BreakHandled encoded max (enc_trailer (r_encoding r)) hung (on_request x w r) r rest resp w1 r' told -> BreakRouted encoded max hung os w r rest resp w1 r' told.
Proof.
  intros W os x HR HA Rt encoded max lim h r hung w rest resp w1 r' told Hp Hr (v' & HS & Ht).
  destruct (dispatched W os x r HR HA (heard_sorted W os x HR HA Rt _ _ _ Hp Hr)) as (g & r1 & HD & HW).
  exists g, r1. split; [exact HD|]. exists v'. split; [|exact Ht]. destruct (HW w) as [[E Ef]|(e & r2 & E & Ef & E1)]; rewrite E in HS.
  - inversion HS; subst. assumption.
  - inversion HS as [| | | |g0 k ? ? ? ? ? HS2| | | |]; subst. cbn beta in HS2. inversion HS2; subst. assumption.
Qed.
Theorem app_broken : forall CS cparse encoded (fresh : CS -> Prop) begun, DecoderHonest encoded CS cparse fresh begun -> forall max, (0 <= max < two64)%Z ->
  forall cfg umax kmax vmax fbs defs, (0 <= umax)%Z -> distinct_names defs ->
  forall W (os : list (list nat * rop W)) x, Running os x -> PlainAliases os -> OrdinaryApp fbs os ->
  (HasParams os -> forall f t, In (f, t) (aliases os) -> t <> []) ->
  forall past ups (st : conn CS (world W)), Amid umax kmax vmax fbs defs fresh past ups st ->
  forall h rest, HeadHeard (cfg_limits cfg umax kmax vmax) (reads_of (k_client st)) (VTaken h rest) ->
  exists r, Heard (cfg_limits cfg umax kmax vmax) h r /\ forall hung, Gone hung (cl_net (k_client st)) -> Breaks encoded max r rest ->
  exists n resp r' out past' ups' st1 told, BreakRouted encoded max hung os (k_world st) r rest resp (k_world st1) r' told /\
    Replies defs past ups (read_as h) r' (not_nil resp) out past' ups' /\ cl_out (k_client st1) = cl_out (k_client st) ++ out /\
    ((exists e, In e [EndWrite; EndClear; EndRead] /\ (e = EndWrite <-> ~ goes_on (read_as h) r' (not_nil resp)) /\
       forall fuel, (n <= fuel)%nat -> serve cparse max cfg (on_request x) (on_error x) fuel st = close_with cparse max (on_error x) e st1) \/
     (told = true /\ goes_on (read_as h) r' (not_nil resp) /\ forall fuel, serve cparse max cfg (on_request x) (on_error x) (n + fuel)%nat st = serve cparse max cfg (on_request x) (on_error x) fuel st1)).
Proof.
  intros CS cparse encoded fresh begun HH max Hm cfg umax kmax vmax fbs defs HU Hdefs W os x HR HA HO Rt past ups st Ha h rest HV. pose proof (heard_nonempty _ _ _ _ HV) as Hp.
  destruct (broken_turn CS cparse encoded fresh begun HH max Hm cfg umax kmax vmax fbs HU defs Hdefs (world W) (on_request x) (on_error x) past ups st h rest
    (fun w r Hr => heard_ordinary W os x HR HA Rt fbs _ h r HO Hp Hr w) Ha HV) as (r & Hr & HT).
  exists r. split; [exact Hr|]. intros hung Hg HL. destruct (HT hung Hg HL) as (n & resp & r' & out & past' & ups' & st1 & told & K1 & K).
  exists n, resp, r', out, past', ups', st1, told. split; [|exact K]. eapply broken_routed; eassumption.
Qed.

(* what is left when nothing can be answered any more *)
Lemma no_body : forall encoded max lim h r rest, (0 <= max)%Z -> Heard lim h r -> (forall text rest', ~ BodyOf encoded max r rest text rest') ->
  Breaks encoded max r rest \/ (281474976710656 < len rest)%Z \/ exists long, Lacks max long r rest.
Proof.
  intros encoded max lim h r rest Hm Hr HB. destruct (enc_chunked (r_encoding r)) eqn:Ec.
  - left. split; [exact Ec|]. intros w t v E En. destruct (Z.le_gt_cases (len t) max) as [L|L]; [|exact L]. exfalso. apply (HB t v). split; [exact L|]. rewrite Ec. exists w. auto.
  - right. destruct (Z.lt_ge_cases 281474976710656 (len rest)) as [Lr|Lr]; [left; exact Lr|right].
    pose proof (heard_length _ _ _ Hr) as Hz. change two63 with 9223372036854775808%Z in Hz.
    destruct (Z.lt_ge_cases max (unsigned (r_content_length r))) as [M|M]; [exists true; split; [exact Ec|exact M]|].
    exists false. split; [exact Ec|]. split; [|exact M]. destruct (Z.le_gt_cases (unsigned (r_content_length r)) (len rest)) as [X|X]; [exfalso|exact X].
    unfold unsigned in *. destruct (r_content_length r <? 0)%Z eqn:E0; [apply Z.ltb_lt in E0; lia|]. apply Z.ltb_ge in E0.
    set (k := Z.to_nat (r_content_length r)). assert (Lk : len (firstn k rest) = r_content_length r) by (unfold len in *; rewrite firstn_length; lia).
    apply (HB (firstn k rest) (skipn k rest)). split; [lia|]. rewrite Ec. rewrite firstn_skipn. change max_alloc with 281474976710656%Z. split; [reflexivity|]. lia.
Qed.
