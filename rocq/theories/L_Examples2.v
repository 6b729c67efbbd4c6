(* Lemmas behind P_Examples.v: the example applications on a connection. *)
From Verif Require Import M_Base M_Config M_Status M_Method M_Proto M_KeyValue M_Query M_Request M_Parser M_Client M_Body
  M_Response M_Serializer M_Suit M_Path M_Radix M_Router M_Static M_Bundled M_Tools M_Resource M_Escape M_ServeHttp1 M_Examples
  S_Static S_KeyValue S_Chunk S_Head S_Parser S_Body S_Response S_Conn S_Split S_Routes S_Router S_Serve S_ServeHttp1 S_Examples
  L_Base L_Path L_Radix L_Router5 L_Router6 L_Conn3 L_Serve L_Tools L_RouterEx L_Examples.

(* an error handler that keeps silent when the connection is closed *)
Definition Silent {W} (os : list (list nat * rop W)) : Prop :=
  forall w r, exists f, error_choice os (he_code ErrCloseConnection) w (set_error (EHttp ErrCloseConnection) r) = HRet (Some f) w.
Lemma silent_close : forall CS (cparse : CS -> bytes -> bool -> CS * (bytes * bytes * option cerr)) max W (os : list (list nat * rop W)) x e st, Running os x -> Silent os ->
  exists st', close_with cparse max (on_error x) e st = (e, st') /\ k_client st' = k_client st /\ k_world st' = k_world st.
Proof.
  intros CS cparse max W os x e st HR HS. unfold close_with, on_error. set (r := p_req (k_parser st)). cbn [run_handler].
  set (r0 := run_mutators (x_mutators x) r). destruct (HS (k_world st) r0) as [f Hf].
  rewrite (errors_handled W os x (k_world st) r0 ErrCloseConnection HR); [|intros [_ C]; discriminate C|intros C; discriminate C].
  rewrite Hf. cbn [run_handler]. eexists. split; [reflexivity|]. split; reflexivity.
Qed.

(* every pipelined request is answered; [ok]: by a response of this kind; [eff]: with this
   effect on the state of the application *)
Section Served.
Variable CS : Type. Variable cparse : CS -> bytes -> bool -> CS * (bytes * bytes * option cerr).
Variable encoded : bool -> bytes -> bytes -> Prop. Variable fresh : CS -> Prop. Variable inside : CS -> bool -> bytes -> bytes -> Prop.
Variable new_chunked : Z -> CS.
Hypothesis D : DecoderOk CS cparse encoded fresh inside.
Hypothesis F : forall n, fresh (new_chunked n).
Definition std : config := app_config [].
Definition std_limits : limits := limits_of std.
Lemma std_distinct : distinct_names std_defs.
Proof. cbn. auto. Qed.

Lemma served : forall W (os : list (list nat * rop W)) x ok eff, Running os x -> PlainAliases os -> OrdinaryApp (response_buff std) os -> Silent os ->
  forall reqs tail enc cl w, Routable os reqs -> Forall (GoodRequest encoded std_limits (body_max_size std)) reqs -> Unfinished std_limits tail ->
  (forall q, In q reqs -> Site W std_defs os ok eff q) -> writes_ok cl -> stream cl = concat (map wire reqs) ++ tail ->
  exists n outs, Forall2 (fun q out => exists f, ok (q_head q) f /\ out = reply std_defs (q_head q) f) (answered reqs) outs /\
    forall fuel, (n <= fuel)%nat -> exists st,
      http1 cparse new_chunked (on_request x) (on_error x) std std_defs enc fuel cl w = (if all_open reqs then EndRead else EndWrite, st) /\
      cl_out (k_client st) = cl_out cl ++ outs /\ Chain eff (answered reqs) w (k_world st).
Proof.
  intros W os x ok eff HR HA HO HS reqs tail enc cl w HRo HG HU HSi Hw Hst.
  destruct (end_to_end CS cparse encoded fresh inside D (body_max_size std) eq_refl (header_cfg std) _ _ _ (response_buff std) std_defs std_distinct W os x HR HA HO reqs []
    (http1_conn new_chunked std std_defs enc cl w) tail HRo (new_between CS (world W) fresh _ _ _ _ std_defs enc _ cl w (F _) Hw) HG HU Hst) as (n & outs & closed & st1 & H1 & H2 & H3).
  destruct (site_dialogue W std_defs os ok eff _ _ _ _ _ _ H1 HSi) as (I1 & I2 & I3); [intros d _; reflexivity|].
  exists n, outs. split; [exact I1|]. intros fuel Hf. unfold http1. rewrite (H3 fuel Hf).
  set (e := match closed with Some _ => EndWrite | None => EndRead end).
  assert (E : e = if all_open reqs then EndRead else EndWrite).
  { unfold e. destruct closed as [l|].
    - destruct (all_open reqs); [|reflexivity]. discriminate (proj2 I3 eq_refl).
    - rewrite (proj1 I3 eq_refl). reflexivity. }
  destruct (silent_close CS cparse (body_max_size std) W os x e st1 HR HS) as (st' & E1 & E2 & E3). exists st'. rewrite E1, E2, E3, H2, <- E. split; [reflexivity|]. split; [reflexivity|exact I2].
Qed.
End Served.

(* ---- the applications can be served ---- *)
Lemma ordinary_405 : forall fbs W (w : world W) r, Ordinary fbs (@default_method_not_allowed W w r).
Proof. intros fbs W w r. apply Ta_ret. intros f H. injection H as <-. apply Sd_plain. reflexivity. Qed.
Lemma ordinary_all : forall fbs W (w : world W) r, Ordinary fbs (@default_all_errors W w r).
Proof. intros fbs W w r. apply Ta_ret. intros f H. injection H as <-. apply Sd_plain. unfold resp_error. destruct (env_error (r_env r)) as [[e| |]|]; reflexivity. Qed.
Lemma plain_without : forall os : list (list nat * rop office), aliases os = [] -> NoMutators os -> PlainAliases os.
Proof. intros os E H. split; [exact H|]. rewrite E. split; [constructor|intros f t []]. Qed.
Lemma replies_map : forall text reqs outs, Forall2 (fun q out => exists f, AnswerText text (q_head q) f /\ out = reply std_defs (q_head q) f) reqs outs ->
  outs = map (fun q => text (q_head q)) reqs.
Proof. intros text reqs outs H. induction H as [|q out reqs outs (f & H1 & H2) H IH]; [reflexivity|]. cbn [map]. rewrite <- IH, H2. f_equal. exact H1. Qed.
Lemma chain_same : forall reqs (w w' : world office), Chain same_world reqs w w' -> w' = w.
Proof. intros reqs w w' H. induction H as [|q l w w1 w2 H1 H IH]; [reflexivity|]. rewrite IH. exact H1. Qed.
Lemma chain_logs : forall text reqs (w w' : world office), Chain (logs text) reqs w w' ->
  w' = (Office (of_log (fst w) ++ concat (map text reqs)) (of_path (fst w)) (of_stopped (fst w)), snd w).
Proof.
  intros text reqs w w' H. induction H as [[[l p s] t]|q l w w1 w2 H1 H IH]; [cbn; rewrite app_nil_r; reflexivity|].
  rewrite IH, H1. cbn [fst snd of_log of_path of_stopped map concat]. rewrite app_assoc. reflexivity.
Qed.

Lemma hello_plain : PlainAliases helloworld.
Proof. apply plain_without; [reflexivity|]. intros a mu [H|[]]; discriminate. Qed.
Lemma hello_ordinary : forall fbs, OrdinaryApp fbs helloworld.
Proof.
  intros fbs. split; [|split].
  - intros p m h [H|[]] w r. injection H as <- <- <-. apply Ta_ret. intros f H. injection H as <-. apply Sd_plain. reflexivity.
  - intros p h [].
  - intros c [-> | ->] w r; [apply ordinary_all|apply ordinary_405].
Qed.
Lemma hello_silent : Silent helloworld.
Proof. intros w r. eexists. reflexivity. Qed.
Lemma dyn_plain : PlainAliases dynroute.
Proof. apply plain_without; [reflexivity|]. intros a mu [H|[]]; discriminate. Qed.
Lemma dyn_ordinary : forall fbs, OrdinaryApp fbs dynroute.
Proof.
  intros fbs. split; [|split].
  - intros p m h [H|[]] w r. injection H as <- <- <-. apply Ta_ret. intros f H. injection H as <-. apply Sd_plain. reflexivity.
  - intros p h [].
  - intros c [-> | ->] w r; [apply ordinary_all|apply ordinary_405].
Qed.
Lemma dyn_silent : Silent dynroute.
Proof. intros w r. eexists. reflexivity. Qed.
Lemma dyn_routable : forall reqs, (forall q, In q reqs -> h_decoded (q_head q) <> []) -> Routable dynroute reqs.
Proof.
  intros reqs H _. split; [intros f t []|exact H].
Qed.
Lemma mid_plain : PlainAliases middlewares.
Proof. apply plain_without; [reflexivity|]. intros a mu H. cbn [In middlewares] in H. repeat (destruct H as [H|H]; [discriminate H|]). destruct H. Qed.
Lemma mid_ordinary : forall fbs, OrdinaryApp fbs middlewares.
Proof.
  intros fbs. split; [|split].
  - intros p m h H w r. rewrite mid_registered in H. destruct H as [H|[]]. injection H as <- <- <-. apply Ta_ret. intros f H. injection H as <-. apply Sd_plain. reflexivity.
  - intros p h [].
  - intros c [-> | ->] w r; [apply ordinary_all|apply ordinary_405].
Qed.
Lemma mid_silent : Silent middlewares.
Proof. intros w r. eexists. reflexivity. Qed.
Lemma static_routable : forall W (os : list (list nat * rop W)) reqs, ~ HasParams os -> Routable os reqs.
Proof. intros W os reqs H C. destruct (H C). Qed.

Section Combined.
Variable files : bytes -> fields.
Variable body_error : bout -> bytes.
Notation com := (combined_ops files body_error).
Lemma com_plain : PlainAliases com.
Proof.
  split; [|split].
  - intros a mu H. cbn in H. repeat (destruct H as [H|H]; [discriminate H|]). destruct H.
  - rewrite com_aliases. cbn. constructor; [intros [C|[]]; discriminate C|]. constructor; [intros []|constructor].
  - rewrite com_aliases. intros f t [H|[H|[]]]; injection H as <- <-; intros [C|[C|[]]]; discriminate C.
Qed.
Lemma ordinary_logged : forall fbs (h : handler office) w r, (forall r1, r1 = r -> exists f w', h w r1 = HRet (Some f) w' /\ Sendable fbs f) ->
  Ordinary fbs (behind [log_requests [log_println]] h w r).
Proof.
  intros fbs h w r H. destruct (H r eq_refl) as (f & w' & E & HS). cbn [behind fold_right]. unfold log_requests. rewrite E. cbn [hbind].
  destruct (f_code f =? 439)%N; [apply Ta_ret; intros g Hg; injection Hg as <-; exact HS|]. apply Ta_look. intros r0. apply Ta_ret. intros g Hg. injection Hg as <-. exact HS.
Qed.
(* the root is longer than the prefix, so the replacer cannot panic *)
Lemma com_ordinary_but : forall fbs, (forall p, Sendable fbs (files p)) ->
  (forall p m h, In (p, m, h) (registered com) -> forall w r, Ordinary fbs (h w r)) /\
  (forall c, c = 404%N \/ c = 405%N -> forall w r, Ordinary fbs (error_choice com c w r)).
Proof.
  intros fbs HF. split.
  - intros p m h H w r. rewrite com_registered in H. cbn [In] in H. destruct H as [H|[H|[H|[H|[H|[]]]]]]; injection H as <- <- <-.
    + apply (Ta_try _ (fun o => o = Some (resp_error (Some (EHttp ErrInternalServerError)) [] new_response))); [apply Ta_crash|apply Ta_ret; reflexivity|].
      intros resp w0 ->. apply Ta_look. intros r0. apply Ta_ret. intros f Hf. injection Hf as <-. apply Sd_plain. reflexivity.
    + cbn [behind fold_right]. unfold log_requests, index_say.
      destruct (negb (beqb (kv_value (r_headers r) (B "talking")) (B "allowed"))).
      * cbn [hbind]. apply Ta_look. intros r0. apply Ta_ret. intros f Hf. injection Hf as <-. apply Sd_plain. reflexivity.
      * cbn [hbind]. apply Ta_body. intros o.
        assert (K : forall f (w' : world office), Sendable fbs f -> (f_code f =? 439)%N = false -> Ordinary fbs (hbind (HRet (Some f) w') (fun resp (w'0 : world office) => match resp with None => HCrash
          | Some f => if (f_code f =? 439)%N then HRet resp w'0 else HLook (fun r' => HRet resp (fold_left (fun v l => l (log_line r' (f_code f)) v) [log_println] (fst w'0), snd w'0)) end))).
        { intros f w' HS Hc. cbn [hbind]. rewrite Hc. apply Ta_look. intros r0. apply Ta_ret. intros g Hg. injection Hg as <-. exact HS. }
        destruct o as [[d|[]| |]| | |]; (apply K; [apply Sd_plain; reflexivity|reflexivity]).
    + apply ordinary_logged. intros r1 ->. eexists. eexists. split; [reflexivity|]. apply Sd_plain. reflexivity.
    + apply ordinary_logged. intros r1 ->. eexists. eexists. split; [reflexivity|]. apply Sd_plain. reflexivity.
    + apply ordinary_logged. intros r1 ->. unfold easter_page. destruct (kv_has (r_headers r) (B "easter")); eexists; eexists; (split; [reflexivity|]; apply Sd_plain; reflexivity).
  - intros c [-> | ->] w r; apply ordinary_logged; intros r1 ->.
    + eexists. eexists. split; [reflexivity|]. apply Sd_plain. unfold resp_error. destruct (env_error (r_env r)) as [[e| |]|]; reflexivity.
    + eexists. eexists. split; [reflexivity|]. apply Sd_plain. reflexivity.
Qed.
Lemma com_ordinary : forall fbs, (forall p, Sendable fbs (files p)) -> OrdinaryApp fbs com.
Proof.
  intros fbs HF. destruct (com_ordinary_but fbs HF) as [H1 H2]. split; [exact H1|]. split; [|exact H2].
  intros p h H w r _. destruct com_caught with (files := files) (body_error := body_error) as (pp & Epp & Hc). rewrite Hc in H. destruct H as [H|[]]. injection H as <- <-.
  apply ordinary_logged. intros r1 ->. vm_compute in Epp. injection Epp as <-. unfold static_handler, static_step, pp_relative. cbn [rp_max rp_with].
  set (b := pp_set _ _ _). cbn [List.length Nat.sub Nat.ltb Nat.leb].
  match goal with |- context [is_safe ?s] => destruct (is_safe s) end; eexists; eexists; (split; [reflexivity|]).
  - apply HF.
  - apply Sd_plain. reflexivity.
Qed.
Lemma com_silent : Silent com.
Proof. intros w r. eexists. reflexivity. Qed.
End Combined.

(* ---- without the router ---- *)
Lemma norouter_conversation : forall reqs w past outs w2 closed, Conversation std_defs (simple_request norouter_handler) reqs w past outs w2 closed -> free_of std_defs past ->
  outs = map (fun q => answer_of norouter_answers (q_head q)) (answered reqs) /\ w2 = w /\ (closed = None <-> all_open reqs = true).
Proof.
  set (g := Fields 200%N [] (B "text/html") [] [(B "Hello", B "world")] (B "<h1>How are you doing?</h1>") [] None).
  assert (G : forall q : req, reply std_defs (q_head q) g = answer_of norouter_answers (q_head q)).
  { intros q. unfold g. rewrite page_reply; [|reflexivity|intros d [<-|[]]; reflexivity]. reflexivity. }
  assert (N : free_of std_defs (names g)) by (intros d [<-|[]]; reflexivity).
  assert (R : forall more w r v resp w1 r', HRun more (simple_request norouter_handler w r) r v resp w1 r' -> resp = Some g /\ w1 = w /\ r' = r).
  { intros more w r v resp w1 r' [v' H]. cbn in H. inversion H; subst. repeat split. }
  intros reqs w past outs w2 closed H. induction H as [w past|q reqs w past r resp w1 r' out outs w2 closed HS HR HO HK HG IH|q reqs w past r resp w1 r' out HS HR HO HK]; intros Hp.
  - split; [reflexivity|]. split; [reflexivity|]. split; reflexivity.
  - apply R in HR. destruct HR as (-> & -> & ->). cbn [not_nil] in *. destruct (shows_sees _ _ HS) as [S1 S2 S3 _ _].
    destruct IH as (I1 & I2 & I3); [apply free_app; assumption|].
    pose proof (proj1 (keeps _ r g (q_head q) eq_refl eq_refl S3) HK) as K. cbn [answered all_open forallb map]. rewrite K. cbn [andb].
    split; [|split; [exact I2|exact I3]]. destruct HO as [_|a E|a p m E|a p l m ws E]; try discriminate. cbn [app]. rewrite <- I1, <- G. unfold reply.
    rewrite S1, (sent_fields_free std_defs past g Hp N). reflexivity.
  - apply R in HR. destruct HR as (-> & -> & ->). cbn [not_nil] in *. destruct (shows_sees _ _ HS) as [S1 S2 S3 _ _].
    assert (K : keeps_open (q_head q) = false).
    { destruct (keeps_open (q_head q)) eqn:E; [|reflexivity]. destruct (HK (proj2 (keeps _ r g (q_head q) eq_refl eq_refl S3) E)). }
    cbn [answered all_open forallb map]. rewrite K. cbn [andb]. split; [|split; [reflexivity|split; discriminate]].
    destruct HO as [_|a E|a p m E|a p l m ws E]; try discriminate. rewrite <- G. unfold reply. rewrite S1, (sent_fields_free std_defs past g Hp N). reflexivity.
Qed.

(* ---- taking the connection over ---- *)
Definition spoken (n : nat) (c : client) : list bytes := fst (fst (take_reads n c)).
Lemma hear_run : forall CS (cparse : CS -> bytes -> bool -> CS * (bytes * bytes * option cerr)) max n w r b c,
  exists c', run_handler cparse max (hear n w) r b c = HDone None (Office (of_log (fst w) ++ map (app (B "somebody says: ")) (spoken n c)) (of_path (fst w)) (of_stopped (fst w)), snd w) r b c' /\
    cl_out c' = cl_out c /\ c' = snd (take_reads n c).
Proof.
  intros CS cparse max n. induction n as [|n IH]; intros [[l p s] t] r b c; unfold spoken; cbn [hear take_reads].
  - exists c. cbn. rewrite app_nil_r. repeat split.
  - cbn [run_handler]. destruct (client_read c) as [[d [e|]] c1] eqn:E.
    + exists c1. cbn. rewrite app_nil_r. split; [reflexivity|]. split; [|reflexivity]. unfold client_read in E.
      destruct (cl_pending c); [destruct (cl_net c) as [|[d0 e0] net]|]; inversion E; subst; reflexivity.
    + destruct (IH (log_println (B "somebody says: " ++ d) (Office l p s), t) r b c1) as (c' & R & O & T). exists c'. cbn [fst snd]. rewrite R.
      unfold spoken in *. destruct (take_reads n c1) as [[ds ok] c2]. cbn [fst snd log_println of_log of_path of_stopped map] in *. rewrite <- app_assoc.
      split; [reflexivity|]. split; [|exact T]. rewrite O. unfold client_read in E.
      destruct (cl_pending c); [destruct (cl_net c) as [|[d0 e0] net]|]; inversion E; subst; reflexivity.
Qed.
Lemma hijack_plain : forall n, PlainAliases (connhijack n).
Proof. intros n. apply plain_without; [reflexivity|]. intros a mu [H|[]]; discriminate. Qed.
Lemma hijack_static : forall n, ~ HasParams (connhijack n).
Proof.
  intros n (p & m & h & t & name & H1 & H2 & H3). change (registered (connhijack n)) with [(B "/", GET, hijack_handler n)] in H1. destruct H1 as [H1|[]]. injection H1 as <- <- <-.
  vm_compute in H2. injection H2 as <-. cbn in H3. intuition discriminate.
Qed.
Lemma hijack_takes : forall n x q w r, Running (connhijack n) x -> h_decoded (q_head q) = B "/" -> h_method (q_head q) = GET \/ h_method (q_head q) = HEAD -> Shows (q_head q) r ->
  Takeover (fun err => match err with Some _ => HRet (Some new_response) w | None => hear n w end) (on_request x w r).
Proof.
  intros n x q w r HR HP HM HS. destruct (shows_sees _ _ HS) as [S1 S2 _ _ _].
  destruct (dispatched office (connhijack n) x r HR (hijack_plain n) (sorted_out office _ x HR (hijack_plain n) [q] q r (static_routable _ _ _ (hijack_static n)) (or_introl eq_refl) HS)) as (h & r1 & HD & HW).
  destruct (static_dispatch _ _ _ _ _ (hijack_static n) HD) as (r0 & HA & C); [rewrite S1; destruct HM as [-> | ->]; discriminate|]. apply no_aliases in HA; [|reflexivity]. subst r0.
  change (registered (connhijack n)) with [(B "/", GET, hijack_handler n)] in C. cbn [r_path set_path] in C. rewrite S1, S2, HP in C. change (normalize (B "/")) with (B "/") in C.
  destruct C as [(m & a & HI & Hm & ->)|[(a & m & h0 & _ & _ & HI & H1 & H2 & _)|[(p & HN & _)|(HN & _)]]].
  - destruct HI as [HI|[]]. injection HI as _ <-. destruct (HW w) as [[-> _]|(e & r2 & -> & _)].
    + apply To_update; [apply (route_keeps office _ x HR (hijack_plain n))|]. apply To_hijack.
    + apply To_update; [apply (route_keeps office _ x HR (hijack_plain n))|]. apply To_update; [apply set_error_harmless|]. apply To_hijack.
  - exfalso. destruct HM as [HM|HM]; rewrite HM in *; [apply (H1 (hijack_handler n))|apply (H2 eq_refl (hijack_handler n))]; left; reflexivity.
  - destruct (HN GET (hijack_handler n)). left. reflexivity.
  - destruct (HN GET (hijack_handler n)). left. reflexivity.
Qed.

(* what the requests to [combined] leave behind *)
Definition asks_shutdown (q : req) : bool := beqb (normalize (h_decoded (q_head q))) (B "/shutdown") && method_eqb (h_method (q_head q)) POST.
Lemma chain_rings : forall reqs (w w' : world office), Chain rings reqs w w' ->
  w' = (Office (of_log (fst w) ++ map (fun q => let h := q_head q in combined_log (h_method h) (h_decoded h) (field_pairs (h_lines h))) reqs) (of_path (fst w))
          (of_stopped (fst w) || existsb asks_shutdown reqs), snd w).
Proof.
  intros reqs w w' H. induction H as [[[l p s] t]|q l w w1 w2 H1 H IH]; [cbn; rewrite app_nil_r, orb_false_r; reflexivity|].
  rewrite IH, H1. cbn [fst snd of_log of_path of_stopped map existsb]. rewrite <- app_assoc, <- orb_assoc. reflexivity.
Qed.
Lemma com_root : forall files body_error r h r1, r_path r = B "/" -> Dispatch (combined_ops files body_error) r h r1 ->
  In (B "/static", h) (caught (combined_ops files body_error)) /\ r_path r1 = B "/static/index.html".
Proof.
  intros files body_error r h r1 HP HD. set (os := combined_ops files body_error) in *.
  assert (HA : forall r0, Arrives os r r0 -> r_path r0 = B "/static/index.html").
  { intros r0 [t H|H].
    - rewrite HP in H. change (aliases os) with [(B "/", B "/static/index.html"); (B "/favicon.ico", B "/static/favicon.ico")] in H. destruct H as [H|[H|[]]]; [|discriminate H].
      injection H as <-. reflexivity.
    - destruct H. rewrite HP. left. reflexivity. }
  assert (HN : forall m h', ~ In (B "/static/index.html", m, h') (registered os)).
  { intros m h' H. unfold os in H. rewrite com_registered in H. cbn [In] in H. repeat (destruct H as [H|H]; [discriminate H|]). destruct H. }
  assert (HL : forall r0 R r1, r_path r0 = B "/static/index.html" -> Place os r0 R r1 -> False).
  { intros r0 R r2 E HL. destruct HL as [_ (m & h0 & HL)|p t parts ps C|C]; [rewrite E in HL; apply (HN m h0 HL)|exact (com_static files body_error C)|exact (com_static files body_error C)]. }
  destruct (com_caught files body_error) as (pp & _ & Hc). fold os in Hc.
  destruct HD as [r0 R r1 m h a HA0 HL0|r0 R r1 a HA0 HL0|r0 R r1 a HA0 HL0|r0 p h ps HA0 HN0 HPO Hps Hi Hpre Hlong|r0 ps HA0 HN0 HPO Hps Hi].
  1-3: destruct (HL _ _ _ (HA _ HA0) HL0).
  - rewrite Hc in *. destruct Hi as [Hi|[]]. injection Hi as <- <-. split; [left; reflexivity|]. exact (HA _ HA0).
  - exfalso. rewrite Hc in Hi. apply (Hi (B "/static") _ (or_introl eq_refl)). rewrite (HA _ HA0). exists (B "/index.html"). reflexivity.
Qed.
Lemma take_reads_length : forall n c ds ok c', take_reads n c = (ds, ok, c') -> (List.length ds <= n)%nat /\ (ok = true -> List.length ds = n).
Proof.
  induction n as [|n IH]; intros c ds ok c' H; cbn [take_reads] in H.
  - injection H as <- <- <-. split; [reflexivity|reflexivity].
  - destruct (client_read c) as [[d [e|]] c1]; [injection H as <- <- <-; cbn; split; [lia|discriminate]|].
    destruct (take_reads n c1) as [[ds1 ok1] c2] eqn:E. injection H as <- <- <-. destruct (IH _ _ _ _ E) as [L1 L2]. cbn [List.length]. split; [lia|]. intros K. rewrite (L2 K). reflexivity.
Qed.
Lemma in_slashes : forall n (c : byte), In c (repeat SLASH n) -> c = SLASH.
Proof. intros n c H. apply repeat_spec in H. exact H. Qed.
Lemma name_one : forall path a b, NameIn path a -> NameIn path b -> a = b.
Proof.
  intros path a b (A1 & A2 & n & ->) (B1 & B2 & k & E). apply (app_inv_head (B "/hello/")) in E. clear A1 B1. revert b B2 E.
  induction a as [|x a IH]; intros b B2 E.
  - destruct b as [|y b]; [reflexivity|]. exfalso. destruct n; [discriminate E|]. cbn in E. injection E as <- _. apply B2. left. reflexivity.
  - destruct b as [|y b].
    + exfalso. cbn [app] in E. destruct k; [discriminate E|]. cbn [repeat] in E. injection E as -> _. apply A2. left. reflexivity.
    + cbn [app] in E. injection E as -> E. f_equal. apply IH; [intro C; apply A2; right; exact C|intro C; apply B2; right; exact C|exact E].
Qed.
Lemma dynroute_one : forall p m path a b, DynrouteAnswer p m path a -> DynrouteAnswer p m path b -> a = b.
Proof.
  assert (R : forall n, ~ NameIn (B "/") n). { intros n (N & _ & k & E). apply (f_equal (@List.length byte)) in E. rewrite !app_length in E. cbn in E. lia. }
  intros p m path a b [n1 H1 M1|n1 H1 M1 M1'|H1|H1 H1'] [n2 H2 M2|n2 H2 M2 M2'|H2|H2 H2']; try reflexivity; try contradiction;
    try (subst path; exfalso; eapply R; eassumption); try (exfalso; destruct M1; contradiction); try (exfalso; destruct M2; contradiction); try (exfalso; eapply H1'; eassumption); try (exfalso; eapply H2'; eassumption).
  rewrite (name_one _ _ _ H1 H2). reflexivity.
Qed.
