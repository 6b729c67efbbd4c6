(* Lemmas: a client reads what an application with the built-in router answers to any bytes. *)
From Verif Require Import M_Base M_Status M_Method M_Proto M_KeyValue M_Query M_Request M_Parser M_Client M_Body
  M_Response M_Serializer M_Suit M_Path M_Radix M_Router S_Static S_KeyValue S_Chunk S_Head S_Parser S_Body S_Response S_Split S_Verdict S_Arrive S_Conn S_Upgrade S_Routes S_Router S_Serve S_Talk S_Missing S_Hears
  L_Base L_Head L_Body L_Chunk L_Response L_Response2 L_Response3 L_Attach L_Conn L_Conn2 L_Conn3 L_ConnProps L_Router5 L_Serve L_ServeEx L_Talk2 L_Talk3 L_Talk4 L_Talk5 L_Hears L_HearsEx P_Parser.

(* ---- what the router passes on ---- *)
Definition same_ask (r r1 : request) : Prop := r_method r1 = r_method r /\ answer_version r1 = answer_version r.
Lemma arrives_ask : forall W (os : list (list nat * rop W)) r r0, Arrives os r r0 -> same_ask r r0.
Proof. intros W os r r0 H. destruct H; split; reflexivity. Qed.
Lemma place_ask : forall W (os : list (list nat * rop W)) r R r1, Place os r R r1 -> same_ask r r1.
Proof. intros W os r R r1 H. destruct H; split; reflexivity. Qed.
Lemma place_registered : forall W (os : list (list nat * rop W)) r R r1, Place os r R r1 -> forall m h, R m h -> exists p, In (p, m, h) (registered os).
Proof. intros W os r R r1 H m h HR. destruct H; [eauto|eauto|destruct HR]. Qed.
Lemma legible_plain : forall defs p f, (200 <= f_code f <= 999)%N -> Renderable f -> Forall (fun e => ~ framing_name (fst e)) (f_headers f) -> f_te f = [] ->
  bodyless (f_code f) = false -> f_att f = None -> Legible defs p f.
Proof.
  intros defs p f H1 H2 H3 H4 H5 H6. constructor; try assumption.
  - congruence.
  - intros a pieces last more E. congruence.
  - intros a E. congruence.
Qed.
Lemma traced_speaks : forall W defs, Speaks defs (fun _ => True) (@traced W).
Proof.
  intros W defs more w r text resp w1 r' _ (v & H). unfold traced in H. inversion H; subst. split; [|reflexivity].
  apply legible_plain; try reflexivity; [cbn; lia| |constructor].
  split; [constructor|]. split; [apply cleanb_ok; reflexivity|]. split; [apply cleanb_ok; reflexivity|constructor].
Qed.
Lemma app_legible : forall W defs (os : list (list nat * rop W)), LegibleApp defs os ->
  forall w r text resp w1 r', Routed os w r text resp w1 r' -> Legible defs (answer_version r) (not_nil resp) /\ r_method r' = r_method r.
Proof.
  intros W defs os (H1 & H2 & H3 & H4) w r text resp w1 r' (h & r1 & HD & HRn).
  assert (K : same_ask r r1 /\ Legible defs (answer_version r1) (not_nil resp) /\ r_method r' = r_method r1).
  2:{ destruct K as ((K1 & K2) & K3 & K4). rewrite K2 in K3. split; [exact K3|congruence]. }
  destruct HD as [r0 R r1 m h a Ar Pl HR _ _|r0 R r1 a Ar Pl _ _ _ Al|r0 R r1 a Ar Pl _ _ _|r0 p h ps Ar _ _ _ Hc Hp _|r0 ps Ar _ _ _ _];
    pose proof (arrives_ask _ _ _ _ Ar) as [A1 A2]; try (pose proof (place_ask _ _ _ _ _ Pl) as [P1 P2]).
  - destruct (place_registered _ _ _ _ _ Pl _ _ HR) as (p & Hi). split; [|exact (H1 _ _ _ Hi _ _ _ _ _ _ _ I HRn)]. split; cbn; [congruence|].
    change (answer_version (set_allowed a r1)) with (answer_version r1). congruence.
  - split; [|refine (H4 _ _ _ _ _ _ _ _ HRn); split; [reflexivity|eexists; exact Al]]. split; cbn; [congruence|].
    change (answer_version r1 = answer_version r). congruence.
  - split; [|exact (traced_speaks _ _ _ _ _ _ _ _ _ I HRn)]. split; cbn; [congruence|]. change (answer_version r1 = answer_version r). congruence.
  - split; [|refine (H2 _ _ Hc _ _ _ _ _ _ _ _ HRn); exact Hp]. split; cbn; [congruence|]. change (answer_version r0 = answer_version r). congruence.
  - split; [|refine (H3 _ _ _ _ _ _ _ _ HRn); reflexivity]. split; cbn; [congruence|]. change (answer_version r0 = answer_version r). congruence.
Qed.

Lemma always_kept : KeptByReads (fun _ => True).
Proof. unfold KeptByReads. auto. Qed.
Theorem app_heard : forall CS cparse encoded fresh inside,
  DecoderOk CS cparse encoded fresh inside -> forall max, (max < two64)%Z -> Decided encoded max ->
  forall cfg umax kmax vmax fbs defs, (0 <= umax)%Z -> distinct_names defs -> Forall clean_field defs -> Forall (fun e => ~ framing_name (fst e)) defs ->
  forall W (os : list (list nat * rop W)) x, Running os x -> PlainAliases os -> OrdinaryApp fbs os ->
  (HasParams os -> forall f t, In (f, t) (aliases os) -> t <> []) ->
  LegibleApp defs os ->
  forall past ups (st : conn CS (world W)), Amid umax kmax vmax fbs defs fresh past ups st ->
  exists n outs left st1 heads ms,
    cl_out (k_client st1) = cl_out (k_client st) ++ outs /\
    TalkHeard encoded max (cfg_limits cfg umax kmax vmax) defs (Routed os) (reads_of (k_client st)) (k_world st) past ups heads ms (k_world st1) left /\
    (forall rest, GetsAll heads (concat outs ++ rest) ms rest) /\
    match left with
    | None => forall fuel, serve cparse max cfg (on_request x) (on_error x) (n + fuel)%nat st = close_with cparse max (on_error x) EndWrite st1
    | Some (reads, past1, ups1) => reads = reads_of (k_client st1) /\ Stops encoded max (cfg_limits cfg umax kmax vmax) reads /\
        Amid umax kmax vmax fbs defs fresh past1 ups1 st1 /\
        forall fuel, serve cparse max cfg (on_request x) (on_error x) (n + fuel)%nat st = serve cparse max cfg (on_request x) (on_error x) fuel st1
    end.
Proof.
  intros CS cparse encoded fresh inside HD max Hmax Dc cfg umax kmax vmax fbs defs HU Hdefs Hc Hf W os x HR HA HO Rt HL past ups st Ha.
  destruct (talk CS cparse encoded fresh inside HD max Hmax cfg umax kmax vmax fbs HU defs Hdefs (world W) (on_request x) (on_error x)
    _ always_kept reachable Dc
    reachable_decided (fun h r => heard_ordinary W os x HR HA Rt fbs _ h r HO) past ups st Ha I) as (n & outs & left & st1 & T & O & K).
  assert (T2 : Talk encoded max (cfg_limits cfg umax kmax vmax) defs (Routed os) (reads_of (k_client st)) (k_world st) past ups outs (k_world st1) left).
  { eapply talk_answers; [|exact T]. intros h r w text resp w1 r' Hr [Hp Hh]. eapply heard_routed; eassumption. }
  destruct (talk_read _ _ _ _ _ _ Hc Hf (app_legible _ _ _ HL) _ _ _ _ _ _ _ T2) as (heads & ms & TH & G).
  exists n, outs, left, st1, heads, ms. split; [exact O|]. split; [exact TH|]. split; [exact G|].
  destruct left as [[[reads past1] ups1]|]; [|exact K]. destruct K as (Er & St & Ha1 & _ & Sv). split; [exact Er|].
  split; [intros h rest HV; exact (St h rest HV (heard_nonempty _ _ _ _ HV))|]. auto.
Qed.

(* the answers of the router itself *)
Lemma not_found_speaks : forall W defs, Speaks defs (fun r => env_error (r_env r) = Some (EHttp ErrNotFound)) (@default_all_errors W).
Proof.
  intros W defs more w r text resp w1 r' E (v & H). unfold default_all_errors in H. inversion H; subst. split; [|reflexivity].
  rewrite E. apply legible_plain; try reflexivity; [cbn; lia| |constructor].
  split; [constructor|]. split; [apply cleanb_ok; reflexivity|]. split; [apply cleanb_ok; reflexivity|constructor].
Qed.
Lemma commas_clean : forall l, Forall clean l -> clean (join_commas l).
Proof.
  intros [|x l] H; [apply clean_nil|]. inversion H as [|? ? H1 H2]; subst. cbn [join_commas]. apply clean_app; [exact H1|].
  clear H H1. induction H2 as [|y l Hy _ IH]; [apply clean_nil|]. cbn [map concat]. apply clean_app; [apply clean_app; [apply cleanb_ok; reflexivity|exact Hy]|exact IH].
Qed.
Lemma method_clean : forall m, clean (method_string m).
Proof. intros m. apply cleanb_ok. destruct m; reflexivity. Qed.
Lemma refusal_speaks : forall W defs,
  Speaks defs (fun r => env_error (r_env r) = Some (EHttp ErrMethodNotAllowed) /\ exists ok, AllowText ok (env_allowed (r_env r))) (@default_method_not_allowed W).
Proof.
  intros W defs more w r text resp w1 r' (_ & ok & ms & _ & _ & E) (v & H). unfold default_method_not_allowed, resp_header in H.
  change (equal_fold (B "Allow") (B "content-type")) with false in H. change (equal_fold (B "Allow") (B "transfer-encoding")) with false in H. cbn iota in H.
  inversion H; subst. split; [|reflexivity].
  assert (Hc : clean (env_allowed (r_env r'))).
  { rewrite E. apply commas_clean. apply Forall_forall. intros x Hx. apply in_map_iff in Hx. destruct Hx as (m & <- & _). apply method_clean. }
  apply legible_plain; try reflexivity; [cbn; lia| |].
  - split; [|split; [apply cleanb_ok; reflexivity|split; [apply cleanb_ok; reflexivity|constructor]]].
    cbn. constructor; [|constructor]. split; [|exact Hc]. split; [apply cleanb_ok; reflexivity|]. split; [discriminate|apply not_in_by; reflexivity].
  - cbn. constructor; [|constructor]. intros [K|K]; vm_compute in K; discriminate.
Qed.

(* ---- an example: the shop ---- *)
Lemma repeat_speaks : forall defs, Speaks defs (fun _ => True) repeat_body.
Proof.
  intros defs more w r text resp w1 r' _ (v & H). unfold repeat_body in H. inversion H; subst.
  match goal with X : HSteps _ (HRet _ _) _ _ _ _ _ |- _ => inversion X; subst end. split; [|reflexivity].
  apply legible_plain; try reflexivity; [cbn; lia| |constructor]. eapply (fun b => proj1 (renderable_new b None)).
Qed.
Lemma shop_legible : LegibleApp [] shop.
Proof.
  split; [|split; [intros p h []|split; [apply not_found_speaks|apply refusal_speaks]]].
  intros p m h H. rewrite shop_registered in H. cbn [In] in H. destruct H as [H|[H|[]]]; injection H as <- <- <-; apply repeat_speaks.
Qed.
Definition shop_bytes : bytes :=
  concat [crlf_lines [B "POST /a HTTP/1.1"; B "Content-Length: 6"; []]; B "secret"; crlf_lines [B "HEAD /c HTTP/1.1"; []]; crlf_lines [B "GET /nowhere HTTP/1.1"; []];
    crlf_lines [B "DELETE /a HTTP/1.1"; []]; crlf_lines [B "GET /c HTTP/1.1"; B "Upgrade: HTTP/1.0"; []]; B "GE"].
Lemma shop_heard : exists x, Running shop x /\
  exists ms, GetsAll [false; true; false; false; false] (concat (cl_out (k_client (snd (shop_serve x [firstn 50 shop_bytes; skipn 50 shop_bytes]))))) ms [] /\
    map m_body ms = [B "secret"; []; []; []; []] /\ map m_code ms = [200; 200; 404; 405; 200]%N.
Proof.
  eexists. split; [apply start_running; vm_compute; reflexivity|]. vm_compute. eexists. split.
  - do 4 (eapply Ga_next; [reads|]). eapply Ga_next; [|apply Ga_end]. eapply Gt_interim; [vm_compute; reflexivity|vm_compute; reflexivity|reads].
  - split; vm_compute; reflexivity.
Qed.
