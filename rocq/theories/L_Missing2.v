(* Lemmas: requests whose fixed-length body does not come, on a connection. *)
From Verif Require Import M_Base M_Status M_Method M_Proto M_KeyValue M_Query M_Request M_Parser M_Client M_Body
  M_Response M_Serializer M_Suit M_Path M_Radix M_Router S_KeyValue S_Chunk S_Head S_Parser S_Body S_Response S_Split S_Verdict S_Arrive S_Conn S_Iso S_Routes S_Router S_Serve S_Upgrade S_Talk S_Missing
  L_Base L_Head L_Body L_Body2 L_Body3 L_BodyProps L_Response L_Response2 L_Response3 L_Attach L_ParserProps L_Router L_Router2 L_Router4 L_Router5 L_Router6 L_Router7 L_Conn L_Conn2 L_Conn3 L_Iso L_Upgrade L_Verdict L_Serve L_Arrive6 L_Talk L_Talk2 L_Talk3 L_Talk4 L_Missing.

Local Arguments client_unread : simpl never.
Local Arguments write_response : simpl never.
Local Arguments pre_write : simpl never.

Lemma heard_length : forall lim h r, Heard lim h r -> (- two63 <= r_content_length r < two63)%Z.
Proof.
  intros lim h r (r0 & (_ & hs & T) & V & _). rewrite (sv_clen _ _ V). pose proof (ta_length _ _ _ _ T) as L. unfold LengthAs in L.
  destruct (existsb _ _); [destruct L as [L _]; exact L|]. change (r_content_length r0 = 0%Z) in L. rewrite L. unfold two63. lia.
Qed.
Lemma unsigned_wrap : forall z, (- two63 <= z < two63)%Z -> wrap_u64 z = unsigned z.
Proof.
  intros z H. unfold wrap_u64, unsigned in *. change two63 with 9223372036854775808%Z in *. change two64 with 18446744073709551616%Z in *. destruct (z <? 0)%Z eqn:E.
  - apply Z.ltb_lt in E. replace z with ((z + 18446744073709551616) + (-1) * 18446744073709551616)%Z at 1 by lia. rewrite Z.mod_add by lia. apply Z.mod_small. lia.
  - apply Z.ltb_ge in E. apply Z.mod_small. lia.
Qed.
Lemma gone_reads : forall hung c d rs, reads_of c = d :: rs -> Gone hung (cl_net c) -> exists c', client_read c = ((d, None), c') /\ reads_of c' = rs /\ cl_pending c' = [] /\ L_Conn.kept c c' /\ Gone hung (cl_net c').
Proof.
  intros hung [net p out w] d rs E G. unfold reads_of in E. cbn [cl_net cl_pending] in *. destruct p as [|x p].
  - destruct net as [|[d0 [e|]] net]; try discriminate E. injection E as -> <-. eexists. split; [reflexivity|]. repeat (split; [reflexivity|]). split; [split; reflexivity|].
    cbn. inversion G as [d0 net0 G'|d0 net0|net0 Hh Hf]; subst; [exact G'|]. inversion Hf as [|? ? E F]; subst. discriminate E.
  - injection E as <- <-. eexists. split; [reflexivity|]. repeat (split; [reflexivity|]). split; [split; reflexivity|exact G].
Qed.

Section Serve.
Variable CS : Type.
Variable cparse : CS -> bytes -> bool -> CS * (bytes * bytes * option cerr).
Variable fresh : CS -> Prop.
Variable max : Z.
Hypothesis max_pos : (0 <= max)%Z.
Variable cfg : hcfg.
Variables umax kmax vmax fbs : Z.
Hypothesis umax_ok : (0 <= umax)%Z.
Variable defs : list entry.
Hypothesis defs_distinct : distinct_names defs.
Variable W : Type.
Variable on_request : W -> request -> hprog W.
Variable on_error : W -> request -> http_error -> hprog W.
Notation conn := (M_Suit.conn CS W).
Notation serve := (M_Suit.serve cparse max cfg on_request on_error).
Notation close_with := (M_Suit.close_with cparse max on_error).
Notation on_head := (M_Suit.on_head cparse max on_request on_error).
Notation lim := (cfg_limits cfg umax kmax vmax).

Lemma serve_done_gone : forall hung reads (st : conn) p' extra rs, reads_of (k_client st) = reads -> Gone hung (cl_net (k_client st)) -> feed cfg (k_parser st) reads = (RDone p' extra, rs) ->
  exists n c1, reads_of c1 = rs /\ cl_pending c1 = [] /\ L_Conn.kept (k_client st) c1 /\ Gone hung (cl_net c1) /\
    forall fuel, serve (S n + fuel)%nat st =
      match on_head (set_k_parser p' (set_k_client c1 st)) extra with inl fin => fin | inr st' => serve fuel st' end.
Proof.
  induction reads as [|d reads IH]; intros st p' extra rs Hr Hg Hf; cbn [feed] in Hf; [discriminate|].
  destruct (gone_reads _ _ _ _ Hr Hg) as (c1 & R1 & R2 & R3 & R4 & R5).
  destruct (parse cfg (k_parser st) d) as [p1|p1 ex|p1 er| |] eqn:Ep; try discriminate.
  - destruct (IH (set_k_parser p1 (set_k_client c1 st)) p' extra rs R2 R5 Hf) as (n & c2 & H1 & H2 & H3 & H5 & H4).
    exists (S n), c2. split; [exact H1|]. split; [exact H2|]. split; [eapply kept_trans; [exact R4|exact H3]|]. split; [exact H5|].
    intros fuel. change (S (S n) + fuel)%nat with (S (S n + fuel)). cbn [M_Suit.serve]. rewrite R1. cbn [k_parser set_k_client]. rewrite Ep.
    rewrite H4. reflexivity.
  - injection Hf as -> -> ->. exists 0%nat, c1. split; [exact R2|]. split; [exact R3|]. split; [exact R4|]. split; [exact R5|].
    intros fuel. change (1 + fuel)%nat with (S fuel). cbn [M_Suit.serve]. rewrite R1. cbn [k_parser set_k_client]. rewrite Ep. reflexivity.
Qed.

Lemma body_missing : forall long hung r rest b c (h : hprog W), Lacks max long r rest -> (- two63 <= r_content_length r < two63)%Z ->
  Gone hung (cl_net c) -> stream c = rest -> r_hijacked r = false -> QueryFresh (r_query r) -> Ordinary fbs h ->
  exists o r' b' c' v', L_Conn.ended CS (run_handler cparse max h r (body_init b r) c) o r' b' c' /\
    HGoes (MAnswer long hung (huge r)) h r (missing_view long rest) o r' v' /\ L_Conn.kept c c' /\
    r_hijacked r' = false /\ r_upgrade r' = r_upgrade r /\ QueryFresh (r_query r') /\ allowed (CanBeSent fbs) (huge r) o /\
    forall c2, same_input c' c2 -> exists x r2 b3 c3, request_clear_full cparse max r' b' c2 = (Some x, r2, b3, c3) /\ L_Conn.kept c2 c3 /\
      (x = None -> reads_of c3 = []) .
Proof.
  intros long hung r rest b c h (L1 & L3) Hz Hg Hs Hj Hq Ho.
  assert (R0 : MRep CS max long hung (huge r) (body_init b r) c (missing_view long rest)).
  { unfold body_init. rewrite L1. constructor; cbn; auto; try discriminate. left. split; [reflexivity|]. unfold MInv. cbn [bd_eof bd_chunked bd_clen bd_left].
    rewrite (unsigned_wrap _ Hz). repeat (split; [assumption || reflexivity || (intros B0; unfold huge in B0; apply Z.ltb_ge in B0; exact B0)|]). destruct long; [auto|]. split; [symmetry; exact Hs|exact L3]. }
  destruct (mtame_ok CS cparse max max_pos long hung (huge r) W (CanBeSent fbs) false h Ho r (body_init b r) c _ R0 Hj Hq) as (o & r' & b' & c' & v' & K1 & K2 & K3 & K4 & K5 & K6 & K7 & K8).
  exists o, r', b', c', v'.
  split; [exact K1|]. split; [exact K3|]. split; [exact K5|]. split; [exact K6|]. split; [exact K7|]. split; [exact K8|]. split; [exact K2|].
  intros c2 Hi. destruct (manswer_ok CS cparse max max_pos long hung (huge r) ODiscard b' c2 v' (mrep_moved CS max long hung (huge r) _ _ _ _ Hi K4)) as (o' & b3 & c3 & v3 & A1 & A2 & A3 & A4).
  pose proof (op_kept _ _ _ _ _ _ _ _ _ A1) as Kp. cbn [body_op] in A1. destruct (body_discard cparse max b' c2) as [[x b1] c1] eqn:E. injection A1 as <- <- <-.
  unfold request_clear_full. rewrite E. destruct x as [x|]; [|destruct A4 as [A4|[A4 _]]; discriminate A4]. destruct x as [e|].
  - exists (Some e), r', b1, c1. split; [reflexivity|]. split; [exact Kp|discriminate].
  - exists None, (request_clear r'), b1, c1. split; [reflexivity|]. split; [exact Kp|]. intros _.
    inversion A2; subst. destruct A3 as [[[K _]|(_ & _ & K)] _ _ _]; [discriminate K|exact (proj2 K)].
Qed.

Lemma missing_turn : forall past ups (st : conn) h rest,
  (forall w r, Heard lim h r -> Ordinary fbs (on_request w r)) ->
  Amid umax kmax vmax fbs defs fresh past ups st -> HeadHeard lim (reads_of (k_client st)) (VTaken h rest) ->
  exists r, Heard lim h r /\ forall long hung, Gone hung (cl_net (k_client st)) -> Lacks max long r rest ->
  exists o r', MissHandled on_request long hung (k_world st) r rest o r' /\
  match o with
  | Panics => huge r = true /\ exists n st1, cl_out (k_client st1) = cl_out (k_client st) /\ k_world st1 = k_world st /\ forall fuel, (n <= fuel)%nat -> serve fuel st = (EndPanic, st1)
  | Returns resp w1 => exists n out past' ups' st1 e, k_world st1 = w1 /\
    Replies defs past ups (read_as h) r' (not_nil resp) out past' ups' /\ cl_out (k_client st1) = cl_out (k_client st) ++ out /\
    In e [EndWrite; EndClear; EndRead] /\ (e = EndWrite <-> ~ goes_on (read_as h) r' (not_nil resp)) /\
    forall fuel, (n <= fuel)%nat -> serve fuel st = close_with e st1
  end.
Proof.
  intros past ups st h rest ordinary Ha HV. pose proof Ha as [HB _]. pose proof HB as [B1 B2 B3 B4 B5 B6].
  pose proof (head_follow cfg umax kmax vmax umax_ok _ _ HV (k_parser st) B1) as (p' & extra & F0 & F2 & _).
  destruct (feed cfg (k_parser st) (reads_of (k_client st))) as [res rs] eqn:F1. cbn [fst snd] in F0, F2. subst res.
  pose proof (taken_heard _ _ _ _ _ _ _ _ _ _ _ _ _ _ _ _ _ umax_ok HB HV F1) as Sh.
  destruct (between_clean _ _ _ _ _ _ _ _ _ _ HB) as [Q0 _].
  destruct (done_ready _ _ _ _ _ _ _ _ _ B1 Q0 F1) as [F3 Qf].
  set (r := p_req p') in *. exists r. split; [exact Sh|]. intros long hung Hg HL.
  destruct (serve_done_gone hung _ st p' extra rs eq_refl Hg F1) as (n & c1 & R1 & R2 & R3 & R5 & R4).
  destruct (heard_enc _ _ _ Sh) as (Sp & Su & Sj).
  destruct (announce_heard CS fresh umax kmax vmax fbs defs defs_distinct W past ups st (read_as h) r Ha Sp Su (taken_version _ _ _ _ _ _ _ HV)) as (s & pre & version & past' & ups' & txt & An & Vu & Sv & Bt & Pr & Rp & Go).
  assert (Hst : stream (client_unread c1 extra) = rest).
  { rewrite stream_unread by exact R2. rewrite <- (reads_concat c1), R1. exact F2. }
  destruct (body_missing long hung r rest (k_body st) (client_unread c1 extra) (on_request (k_world st) r) HL (heard_length _ _ _ Sh) R5 Hst Sj Qf (ordinary _ _ Sh))
    as (o & r' & b' & c' & v' & K1 & K2 & K3 & K4 & K5 & K6 & K7 & K8).
  exists o, r'. split; [exists v'; exact K2|]. destruct o as [resp w1|]; cbn [L_Conn.ended allowed] in K1, K7.
  2:{ split; [exact K7|]. exists (S n), (set_k_parser p' (set_k_client c1 st)). cbn [set_k_parser set_k_client k_client k_world]. split; [apply R3|]. split; [reflexivity|].
      intros fuel Hf. replace fuel with (S n + (fuel - S n))%nat by lia. rewrite R4. unfold M_Suit.on_head. cbn [k_parser set_k_parser set_k_client k_client k_ser k_body k_pre k_world].
      fold r. rewrite An, K1. reflexivity. }
  rewrite Su in K5.
  destruct (write_response version r' (not_nil resp) s c') as [[[res s'] c''] f''] eqn:Ew.
  assert (Hwok : writes_ok c').
  { unfold writes_ok in *. destruct K3 as [_ ->]. unfold client_unread. cbn [cl_wres]. destruct R3 as [_ ->]. exact B6. }
  assert (Hsd : Sendable fbs (not_nil resp)). { destruct resp as [f|]; [apply K7; reflexivity|apply Sd_plain; reflexivity]. }
  destruct (write_sent_behind _ _ _ _ _ _ _ _ _ _ _ _ Sv defs_distinct Vu Hwok Hsd Ew) as (first & restw & S1 & S2 & S3).
  rewrite Bt in S2. rewrite K5 in S3.
  destruct (write_response_input _ _ _ _ _ _ _ _ _ Ew) as [I1 I2].
  assert (Hout : cl_out c'' = cl_out (k_client st) ++ (txt ++ first) :: restw).
  { rewrite S2. destruct K3 as [-> _]. unfold client_unread. cbn [cl_out]. destruct R3 as [-> _]. reflexivity. }
  assert (Hoh : on_head (set_k_parser p' (set_k_client c1 st)) extra =
    match res with
    | WPanic => inl (EndPanic, Conn (set_p_req r' p') s' c'' b' pre w1)
    | WStuck => inl (EndStuck, Conn (set_p_req r' p') s' c'' b' pre w1)
    | WClose | WNet => inl (close_with EndWrite (Conn (set_p_req r' p') s' c'' b' pre w1))
    | WOk => let '(res2, r2, b2, c2) := request_clear_full cparse max r' b' c'' in
             match res2 with
             | Some None => inr (Conn (set_p_req r2 p') s' c2 b2 pre w1)
             | Some (Some _) => inl (close_with EndClear (Conn (set_p_req r2 p') s' c2 b2 pre w1))
             | None => inl (EndStuck, Conn (set_p_req r2 p') s' c2 b2 pre w1)
             end
    end).
  { unfold M_Suit.on_head. cbn [k_parser set_k_parser set_k_client k_client k_ser k_body k_pre k_world]. fold r. rewrite An.
    rewrite K1, K4, Ew. reflexivity. }
  pose proof (Rp r' (not_nil resp) first restw S1) as Rp1.
  destruct S3 as [[-> So] | [-> So]]; rewrite Go in So.
  - destruct (K8 c'' I1) as (x & r2 & b3 & c3 & D1 & D2 & D3). rewrite D1 in Hoh. destruct x as [e|].
    + exists (S n), ((txt ++ first) :: restw), (past' ++ names (not_nil resp)), ups', (Conn (set_p_req r2 p') s' c3 b3 pre w1), EndClear. cbn [k_client k_world].
      split; [reflexivity|]. split; [exact Rp1|]. split; [destruct D2 as [-> _]; exact Hout|]. split; [cbn; auto|]. split; [split; [discriminate|intros N; exfalso; exact (N So)]|].
      intros fuel Hf. replace fuel with (S n + (fuel - S n))%nat by lia. rewrite R4, Hoh. reflexivity.
    + destruct (serve_pending CS cparse max cfg W on_request on_error [] (Conn (set_p_req r2 p') s' c3 b3 pre w1) (set_p_req r2 p') (D3 eq_refl) eq_refl) as (m & c4 & P1 & P2).
      exists (S n + S m)%nat, ((txt ++ first) :: restw), (past' ++ names (not_nil resp)), ups', (set_k_parser (set_p_req r2 p') (set_k_client c4 (Conn (set_p_req r2 p') s' c3 b3 pre w1))), EndRead.
      cbn [k_client k_world set_k_parser set_k_client]. split; [reflexivity|]. split; [exact Rp1|].
      split; [destruct P1 as [-> _]; cbn [k_client]; destruct D2 as [-> _]; exact Hout|]. split; [cbn; auto|]. split; [split; [discriminate|intros N; exfalso; exact (N So)]|].
      intros fuel Hf. replace fuel with (S n + (S m + (fuel - (S n + S m))))%nat by lia. rewrite R4, Hoh. apply P2.
  - exists (S n), ((txt ++ first) :: restw), (past' ++ names (not_nil resp)), ups', (Conn (set_p_req r' p') s' c'' b' pre w1), EndWrite. cbn [k_client k_world].
    split; [reflexivity|]. split; [exact Rp1|]. split; [exact Hout|]. split; [cbn; auto|]. split; [split; [intros _; exact So|reflexivity]|].
    intros fuel Hf. replace fuel with (S n + (fuel - S n))%nat by lia. rewrite R4, Hoh. reflexivity.
Qed.
End Serve.

Lemma missing_routed : forall W (os : list (list nat * rop W)) x, Running os x -> PlainAliases os ->
  (HasParams os -> forall f t, In (f, t) (aliases os) -> t <> []) ->
  forall lim h r long hung w rest o r', h_decoded h <> [] -> Heard lim h r ->
  MissHandled (on_request x) long hung w r rest o r' -> MissRouted os long hung w r rest o r'.
Proof.
  intros W os x HR HA Rt lim h r long hung w rest o r' Hp Hr (v' & HS).
  destruct (dispatched W os x r HR HA (heard_sorted W os x HR HA Rt _ _ _ Hp Hr)) as (g & r1 & HD & HW).
  exists g, r1, v'. split; [exact HD|]. destruct (HW w) as [[E Ef]|(e & r2 & E & Ef & E1)]; rewrite E in HS.
  - inversion HS; subst. assumption.
  - inversion HS as [| | | |g0 k ? ? ? ? ? HS2| | | |]; subst. cbn beta in HS2. inversion HS2; subst. assumption.
Qed.
Theorem app_missing : forall CS cparse (fresh : CS -> Prop) max, (0 <= max)%Z ->
  forall cfg umax kmax vmax fbs defs, (0 <= umax)%Z -> distinct_names defs ->
  forall W (os : list (list nat * rop W)) x, Running os x -> PlainAliases os -> OrdinaryApp fbs os ->
  (HasParams os -> forall f t, In (f, t) (aliases os) -> t <> []) ->
  forall past ups (st : conn CS (world W)), Amid umax kmax vmax fbs defs fresh past ups st ->
  forall h rest, HeadHeard (cfg_limits cfg umax kmax vmax) (reads_of (k_client st)) (VTaken h rest) ->
  exists r, Heard (cfg_limits cfg umax kmax vmax) h r /\ forall long hung, Gone hung (cl_net (k_client st)) -> Lacks max long r rest ->
  exists o r', MissRouted os long hung (k_world st) r rest o r' /\
  match o with
  | Panics => huge r = true /\ exists n st1, cl_out (k_client st1) = cl_out (k_client st) /\ k_world st1 = k_world st /\
      forall fuel, (n <= fuel)%nat -> serve cparse max cfg (on_request x) (on_error x) fuel st = (EndPanic, st1)
  | Returns resp w1 => exists n out past' ups' st1 e, k_world st1 = w1 /\
    Replies defs past ups (read_as h) r' (not_nil resp) out past' ups' /\ cl_out (k_client st1) = cl_out (k_client st) ++ out /\
    In e [EndWrite; EndClear; EndRead] /\ (e = EndWrite <-> ~ goes_on (read_as h) r' (not_nil resp)) /\
    forall fuel, (n <= fuel)%nat -> serve cparse max cfg (on_request x) (on_error x) fuel st = close_with cparse max (on_error x) e st1
  end.
Proof.
  intros CS cparse fresh max Hm cfg umax kmax vmax fbs defs HU Hdefs W os x HR HA HO Rt past ups st Ha h rest HV. pose proof (heard_nonempty _ _ _ _ HV) as Hp.
  destruct (missing_turn CS cparse fresh max Hm cfg umax kmax vmax fbs HU defs Hdefs (world W) (on_request x) (on_error x) past ups st h rest
    (fun w r Hr => heard_ordinary W os x HR HA Rt fbs _ h r HO Hp Hr w) Ha HV) as (r & Hr & HT).
  exists r. split; [exact Hr|]. intros long hung Hg HL. destruct (HT long hung Hg HL) as (o & r' & K1 & K).
  exists o, r'. split; [|exact K]. eapply missing_routed; eassumption.
Qed.
