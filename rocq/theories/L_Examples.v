(* Lemmas behind P_Examples.v. *)
From Verif Require Import M_Base M_Config M_Status M_Method M_Proto M_KeyValue M_Query M_Request M_Parser M_Client M_Body
  M_Response M_Serializer M_Suit M_Path M_Radix M_Router M_Static M_Bundled M_Tools M_Resource M_Escape M_Examples
  S_Static S_KeyValue S_Chunk S_Head S_Parser S_Body S_Response S_Conn S_Split S_Routes S_Router S_Serve S_Examples
  L_Base L_Path L_Radix L_KeyValue L_Router5 L_Router6 L_Serve L_Https2.

Definition connection_of (h : head) : bytes := or_default (last_value (B "connection") (h_lines h)) [].
Definition reply (defs : list entry) (h : head) (f : fields) : bytes :=
  response_text (version_of (h_proto h)) (itoa_N (f_code f)) (sent_reason f) (sent_fields defs [] f)
    (if method_eqb (h_method h) HEAD then [] else f_body f).
Inductive Chain {A} (eff : req -> A -> A -> Prop) : list req -> A -> A -> Prop :=
| Ch_nil : forall w, Chain eff [] w w
| Ch_cons : forall q l w w1 w2, eff q w w1 -> Chain eff l w1 w2 -> Chain eff (q :: l) w w2.
Definition free_of (defs : list entry) (ns : list bytes) : Prop := forall d, In d defs -> named ns (fst d) = false.

Lemma named_app : forall a b n, named (a ++ b) n = named a n || named b n.
Proof. intros a b n. unfold named. apply existsb_app. Qed.
Lemma free_app : forall defs a b, free_of defs a -> free_of defs b -> free_of defs (a ++ b).
Proof. intros defs a b Ha Hb d Hd. rewrite named_app, (Ha d Hd), (Hb d Hd). reflexivity. Qed.
Lemma remaining_free : forall defs ns, free_of defs ns -> remaining ns defs = defs.
Proof.
  intros defs ns H. unfold remaining. induction defs as [|d defs IH]; [reflexivity|]. cbn [filter].
  rewrite (H d (or_introl eq_refl)). cbn [negb]. f_equal. apply IH. intros d' Hd. apply H. right. exact Hd.
Qed.
Lemma sent_fields_free : forall defs past f, free_of defs past -> free_of defs (names f) -> sent_fields defs past f = sent_fields defs [] f.
Proof.
  intros defs past f H1 H2. unfold sent_fields. rewrite (remaining_free defs (past ++ names f)) by (apply free_app; assumption).
  rewrite (remaining_free defs ([] ++ names f)) by exact H2. reflexivity.
Qed.
Lemma keeps : forall p r f h, f_att f = None -> p = h_proto h -> r_connection r = connection_of h ->
  (stays_open p r f <-> keeps_open h = true).
Proof.
  intros p r f h HA -> Hr. unfold stays_open, keeps_open, same_key. rewrite Hr. fold (connection_of h). rewrite HA.
  assert (E : forall b, same_keyb (connection_of h) b = true <-> map lower (connection_of h) = map lower b).
  { intros b. unfold same_keyb. destruct (list_eq_dec Byte.byte_eq_dec (map lower (connection_of h)) (map lower b)); split; congruence. }
  destruct (h_proto h); split.
  all: try (intros [C|[[C _]|[C _]]]; [destruct (C eq_refl)|discriminate C|discriminate C]).
  all: try discriminate.
  - intros [C|[[_ C]|[C _]]]; [destruct (C eq_refl)|apply E; exact C|discriminate C].
  - intros C. right. left. split; [reflexivity|]. apply E. exact C.
  - intros [C|[[C _]|[_ C]]]; [destruct (C eq_refl)|discriminate C|]. apply Bool.negb_true_iff. destruct (same_keyb (connection_of h) (B "close")) eqn:K; [destruct (C (proj1 (E _) K))|reflexivity].
  - intros C. right. right. split; [reflexivity|]. apply Bool.negb_true_iff in C. intro D. apply E in D. congruence.
Qed.

Section Site.
Variable W : Type.
Variable defs : list entry.
Variable os : list (list nat * rop W).
Variable ok : head -> fields -> Prop.
Variable eff : req -> world W -> world W -> Prop.
Definition Site (q : req) : Prop := forall r h r1 w resp w1 r', Shows (q_head q) r -> Dispatch os r h r1 ->
  HRun (more_of (q_head q)) (h w r1) r1 (fresh_view (q_text q)) resp w1 r' ->
  exists f, resp = Some f /\ f_att f = None /\ ok (q_head q) f /\ eff q w w1 /\ r_method r' = h_method (q_head q) /\
    r_connection r' = connection_of (q_head q) /\ free_of defs (names f).
Lemma site_dialogue : forall reqs w past outs w2 closed, Dialogue defs os reqs w past outs w2 closed ->
  (forall q, In q reqs -> Site q) -> free_of defs past ->
  Forall2 (fun q out => exists f, ok (q_head q) f /\ out = reply defs (q_head q) f) (answered reqs) outs /\
  Chain eff (answered reqs) w w2 /\ (closed = None <-> all_open reqs = true).
Proof.
  intros reqs w past outs w2 closed H. induction H as [w past|q reqs w past r h r1 resp w1 r' out outs w2 closed HS HD HR HO HK HG IH|q reqs w past r h r1 resp w1 r' out HS HD HR HO HK]; intros Hs Hp.
  - split; [constructor|]. split; [constructor|]. split; reflexivity.
  - destruct (Hs q (or_introl eq_refl) r h r1 w resp w1 r' HS HD HR) as (f & -> & HA & Hok & He & Hm & Hc & Hf). cbn [not_nil] in *.
    destruct (IH (fun q' H' => Hs q' (or_intror H'))) as (I1 & I2 & I3); [apply free_app; assumption|].
    pose proof (proj1 (keeps _ r' f (q_head q) HA eq_refl Hc) HK) as K. cbn [answered all_open forallb]. rewrite K. cbn [andb].
    split; [|split; [econstructor; eassumption|exact I3]].
    destruct HO as [_|a E|a p m E|a p l m ws E]; try congruence. cbn [app]. constructor; [|exact I1].
    exists f. split; [exact Hok|]. unfold reply. rewrite Hm, (sent_fields_free defs past f Hp Hf). reflexivity.
  - destruct (Hs q (or_introl eq_refl) r h r1 w resp w1 r' HS HD HR) as (f & -> & HA & Hok & He & Hm & Hc & Hf). cbn [not_nil] in *.
    assert (K : keeps_open (q_head q) = false).
    { destruct (keeps_open (q_head q)) eqn:E; [|reflexivity]. destruct (HK (proj2 (keeps _ r' f (q_head q) HA eq_refl Hc) E)). }
    cbn [answered all_open forallb]. rewrite K. cbn [andb]. split; [|split; [econstructor; [exact He|constructor]|split; discriminate]].
    destruct HO as [_|a E|a p m E|a p l m ws E]; try congruence. constructor; [|constructor].
    exists f. split; [exact Hok|]. unfold reply. rewrite Hm, (sent_fields_free defs past f Hp Hf). reflexivity.
Qed.
End Site.

(* the default headers of the default configuration *)
Definition std_defs : list entry := [(B "Accept-Encodings", B "identity")].
Lemma page_reply : forall h c hs body, (c =? 101)%N = false -> free_of std_defs (map fst hs) ->
  reply std_defs h (Fields c [] (B "text/html") [] hs body [] None) =
  page (h_proto h) (h_method h) (itoa_N c ++ B " " ++ status_text c) (map (fun e => fst e ++ B ": " ++ snd e) hs) body.
Proof.
  intros h c hs body Hc Hf. unfold reply, sent_reason, sent_fields, page, lines, response_text, names. cbn [f_code f_headers f_ctype f_te f_cookies f_body f_status app map].
  rewrite Hc. cbn [andb]. rewrite (remaining_free std_defs (map fst hs) Hf). unfold std_defs.
  rewrite !map_app, !concat_app. cbn [map concat app field_text fst snd].
  assert (E : concat (map field_text hs) = concat (map (fun s => s ++ CRLF) (map (fun e => fst e ++ B ": " ++ snd e) hs))).
  { rewrite map_map. f_equal. apply map_ext. intros [k v]. unfold field_text. cbn [fst snd]. rewrite <- !app_assoc. reflexivity. }
  rewrite !concat_app. cbn [concat]. rewrite ?app_nil_r, <- !app_assoc. cbn [app].
  apply (f_equal (app (version_of (h_proto h)))). change (B " ") with [SP]. cbn [app]. apply (f_equal (cons SP)). apply (f_equal (app (itoa_N c))).
  apply (f_equal (cons SP)). apply (f_equal (app (status_text c))). apply (f_equal (app CRLF)). apply (f_equal2 (@app byte) E). destruct (h_method h); reflexivity.
Qed.

(* ---- what is dispatched where, without parameters in the routes ---- *)
Lemma static_dispatch : forall W (os : list (list nat * rop W)) r hd r1, ~ HasParams os -> Dispatch os r hd r1 -> r_method r <> TRACE ->
  exists r0, Arrives os r r0 /\
  ((exists m a, In (r_path r0, m, hd) (registered os) /\ (m = r_method r \/ (r_method r = HEAD /\ m = GET)) /\ r1 = set_allowed a r0) \/
   (exists a m h, hd = error_choice os 405%N /\ r1 = set_error (EHttp ErrMethodNotAllowed) (set_allowed a r0) /\ In (r_path r0, m, h) (registered os) /\
      (forall h, ~ In (r_path r0, r_method r, h) (registered os)) /\ (r_method r = HEAD -> forall h, ~ In (r_path r0, GET, h) (registered os)) /\
      AllowText (fun m => exists h, In (r_path r0, m, h) (registered os)) a) \/
   (exists p, (forall m h, ~ In (r_path r0, m, h) (registered os)) /\ In (p, hd) (caught os) /\ Prefix p (r_path r0) /\ r1 = set_params (r_params r0) r0) \/
   ((forall m h, ~ In (r_path r0, m, h) (registered os)) /\ (forall p h, In (p, h) (caught os) -> ~ Prefix p (r_path r0)) /\
      hd = error_choice os 404%N /\ r1 = set_error (EHttp ErrNotFound) (set_params (r_params r0) r0))).
Proof.
  intros W os r hd r1 HP HD HT.
  assert (N : forall r0, Nowhere os r0 -> forall m h, ~ In (r_path r0, m, h) (registered os)) by (intros r0 [[_ H]|[H _]]; [exact H|destruct (HP H)]).
  destruct HD as [r0 R r1 m h a HA HL HR Hm HW|r0 R r1 a HA HL H1 H2 H3 HW|r0 R r1 a HA HL H1 H2 HW|r0 p h ps HA HN HPO Hps Hc Hpre Hlong|r0 ps HA HN HPO Hps Hc].
  - exists r0. split; [exact HA|]. left. destruct HL as [_ HL|p0 t parts ps C|C]; [|destruct (HP C)|destruct (HP C)].
    exists m, a. split; [exact HR|]. split; [destruct Hm as [Hm|(Hm1 & Hm2 & _)]; auto|reflexivity].
  - exists r0. split; [exact HA|]. right. left. destruct HL as [_ (m & h & HL)|p0 t parts ps C|C]; [|destruct (HP C)|destruct (HP C)].
    exists a, m, h. repeat split; assumption.
  - destruct (HT H2).
  - exists r0. split; [exact HA|]. right. right. left. exists p. rewrite (Hps HP). split; [apply N; exact HN|]. repeat split; assumption.
  - exists r0. split; [exact HA|]. right. right. right. rewrite (Hps HP). split; [apply N; exact HN|]. repeat split; assumption.
Qed.
Lemma no_aliases : forall W (os : list (list nat * rop W)) r r0, aliases os = [] -> Arrives os r r0 -> r0 = set_path (normalize (r_path r)) r.
Proof. intros W os r r0 E [t H|H]; [rewrite E in H; destruct H|reflexivity]. Qed.
Lemma allow_one : forall (P : method -> Prop) m0 a, (forall m, P m <-> m = m0) -> AllowText P a -> a = method_string m0.
Proof.
  intros P m0 a HP (ms & Hn & Hi & ->).
  assert (E : forall m, In m ms <-> m = m0) by (intros m; rewrite Hi; apply HP).
  destruct ms as [|m ms]; [destruct (proj2 (E m0) eq_refl)|]. pose proof (proj1 (E m) (or_introl eq_refl)) as ->.
  destruct ms as [|m' ms]; [destruct m0; reflexivity|]. pose proof (proj1 (E m') (or_intror (or_introl eq_refl))) as ->.
  inversion Hn as [|? ? C _]; subst. destruct C. left. reflexivity.
Qed.
Record Sees (h : head) (r : request) : Prop := {
  se_method : r_method r = h_method h; se_path : r_path r = h_decoded h; se_conn : r_connection r = connection_of h;
  se_headers : kv_pairs (r_headers r) = field_pairs (h_lines h); se_params : kv_pairs (r_params r) = [] }.
Lemma shows_sees : forall h r, Shows h r -> Sees h r.
Proof.
  intros h r (r0 & M & V & _). destruct M, V. constructor.
  - congruence.
  - congruence.
  - rewrite sv_conn, mn_conn. reflexivity.
  - rewrite sv_headers, mn_headers. reflexivity.
  - rewrite sv_params, mn_params. reflexivity.
Qed.
Lemma norm_loop_one : forall i p, norm_loop i p = [SLASH] -> (i < List.length p)%nat -> p = [SLASH].
Proof.
  induction i as [|i IH]; intros p H L; [exact H|]. destruct i as [|i]; [exact H|]. cbn [norm_loop] in H.
  destruct (Byte.eqb (nth (S (S i)) p x00) SLASH); [apply IH; [exact H|lia]|]. apply (f_equal (@List.length byte)) in H.
  rewrite firstn_length_le in H by lia. cbn in H. lia.
Qed.
Lemma normalize_root : forall p, normalize p = [SLASH] <-> p = [SLASH].
Proof.
  intros p. split; [|intros ->; reflexivity]. unfold normalize. intros H. destruct p as [|c p]; [discriminate H|].
  apply (norm_loop_one _ _ H). cbn. lia.
Qed.

(* the default error handlers *)
Lemma run_405 : forall more W (w : world W) r v resp w1 r', HRun more (default_method_not_allowed w r) r v resp w1 r' ->
  w1 = w /\ r' = r /\ resp = Some (Fields 405%N [] (B "text/html") [] [(B "Allow", env_allowed (r_env r))] [] [] None).
Proof. intros more W w r v resp w1 r' [v' H]. cbn in H. inversion H; subst. repeat split. Qed.
Lemma run_404 : forall more W (w : world W) r0 v resp w1 r', let r := set_error (EHttp ErrNotFound) r0 in HRun more (default_all_errors w r) r v resp w1 r' ->
  w1 = w /\ r' = r /\ resp = Some (Fields 404%N [] (B "text/html") [] [] [] [] None).
Proof. intros more W w r0 v resp w1 r' r [v' H]. cbn in H. inversion H; subst. repeat split. Qed.

Definition same_world (q : req) (w w' : world office) : Prop := w' = w.
Definition AnswerText (text : head -> bytes) (h : head) (f : fields) : Prop := reply std_defs h f = text h.

(* ---- helloworld ---- *)
Lemma hello_static : ~ HasParams helloworld.
Proof.
  intros (p & m & h & t & name & H1 & H2 & H3). change (registered helloworld) with [(B "/", GET, hello_handler)] in H1. destruct H1 as [H1|[]]. injection H1 as <- <- <-.
  vm_compute in H2. injection H2 as <-. cbn in H3. intuition discriminate.
Qed.
Lemma hello_site : forall q, h_method (q_head q) <> TRACE -> Site office std_defs helloworld (AnswerText (answer_of helloworld_answers)) same_world q.
Proof.
  intros q HT r h r1 w resp w1 r' HS HD HR. destruct (shows_sees _ _ HS) as [S1 S2 S3 _ _].
  destruct (static_dispatch _ _ _ _ _ hello_static HD) as (r0 & HA & C); [congruence|]. apply no_aliases in HA; [|reflexivity]. subst r0.
  change (registered helloworld) with [(B "/", GET, hello_handler)] in C. change (caught helloworld) with (@nil (bytes * handler office)) in C. cbn [r_path set_path] in C. rewrite S1, S2 in *.
  unfold AnswerText, answer_of, helloworld_answers, same_world.
  destruct C as [(m & a & HI & Hm & ->)|[(a & m & h0 & -> & -> & HI & H1 & H2 & HW)|[(p & _ & [] & _)|(HN & _ & -> & ->)]]].
  - destruct HI as [HI|[]]. injection HI as HI1 HI2 HI3. subst m h. symmetry in HI1. apply (proj1 (normalize_root _)) in HI1. rewrite HI1. cbn [beqb].
    destruct HR as [v' HR]. cbn in HR. inversion HR; subst. exists (Fields 200%N [] (B "text/html") [] [(B "Hello", B "world")] (B "<h1>Hello, world!</h1>") [] None).
    split; [reflexivity|]. split; [reflexivity|]. split.
    + rewrite page_reply; [|reflexivity|intros d [<-|[]]; reflexivity]. destruct Hm as [Hm|[Hm _]]; [rewrite <- Hm|rewrite Hm]; reflexivity.
    + split; [reflexivity|]. cbn. split; [exact S1|]. split; [exact S3|]. intros d [<-|[]]. reflexivity.
  - destruct HI as [HI|[]]. injection HI as HI1 <- <-. change (error_choice helloworld 405%N) with (@default_method_not_allowed office) in HR.
    apply run_405 in HR. destruct HR as (-> & -> & ->). eexists. split; [reflexivity|]. split; [reflexivity|].
    assert (a = B "GET") as ->.
    { apply (allow_one _ GET a) in HW; [exact HW|]. intros m. rewrite <- HI1. split; [intros (h' & [E|[]]); congruence|intros ->; eexists; left; reflexivity]. }
    symmetry in HI1. apply (proj1 (normalize_root _)) in HI1. rewrite HI1 in *. split.
    + rewrite page_reply; [|reflexivity|intros d [<-|[]]; reflexivity]. cbn [beqb].
      destruct (h_method (q_head q)); try reflexivity; [destruct (H1 hello_handler); left; reflexivity|destruct (H2 eq_refl hello_handler); left; reflexivity].
    + split; [reflexivity|]. cbn. split; [exact S1|]. split; [exact S3|]. intros d [<-|[]]. reflexivity.
  - change (error_choice helloworld 404%N) with (@default_all_errors office) in HR. apply run_404 in HR. destruct HR as (-> & -> & ->).
    eexists. split; [reflexivity|]. split; [reflexivity|]. split.
    + rewrite page_reply; [|reflexivity|intros d [<-|[]]; reflexivity]. destruct (beqb (h_decoded (q_head q)) (B "/")) eqn:E; [|reflexivity].
      apply beqb_eq in E. destruct (HN GET hello_handler). left. rewrite E. reflexivity.
    + split; [reflexivity|]. cbn. split; [exact S1|]. split; [exact S3|]. intros d [<-|[]]. reflexivity.
Qed.

(* ---- dynroute ---- *)
Definition world_template : list seg := [SStatic (B "hello"); SWild (B "world-name")].
Lemma not_in_str : forall b l, existsb (Byte.eqb b) l = false -> ~ In b l.
Proof. intros b l H C. apply not_true_iff_false in H. apply H. apply existsb_exists. exists b. split; [exact C|apply beq_refl]. Qed.
Lemma world_proper : Proper world_template.
Proof.
  split; [|split].
  - apply Forall_cons; [|apply Forall_cons; [|apply Forall_nil]]; cbn [good_seg].
    + split; [discriminate|]. split; apply not_in_str; reflexivity.
    + split; [apply not_in_str; reflexivity|]. split; apply not_in_str; reflexivity.
  - exact I.
  - intros t' c H. apply (f_equal (fun l => last l (SStatic []))) in H. rewrite last_last in H. discriminate.
Qed.
Lemma dyn_registered : registered dynroute = [(template_text world_template, GET, dynamic_handler)].
Proof. reflexivity. Qed.
Lemma dyn_template : forall t m h, Proper t -> In (template_text t, m, h) (registered dynroute) -> t = world_template /\ m = GET /\ h = dynamic_handler.
Proof.
  intros t m h HP HI. rewrite dyn_registered in HI. destruct HI as [HI|[]].
  assert (E : tparse (template_text t) = tparse (template_text world_template)) by congruence.
  rewrite (proper_parsed t HP), (proper_parsed _ world_proper) in E. split; [congruence|]. split; congruence.
Qed.
Lemma dyn_params : HasParams dynroute.
Proof.
  exists (template_text world_template), GET, dynamic_handler, world_template, (B "world-name"). split; [left; reflexivity|]. split; [exact (proper_parsed _ world_proper)|]. right. left. reflexivity.
Qed.
Lemma dyn_read : forall p m h t, In (p, m, h) (registered dynroute) -> tparse p = inr t -> p = template_text world_template /\ t = world_template.
Proof.
  intros p m h t HI HT. rewrite dyn_registered in HI. destruct HI as [HI|[]]. injection HI as <- _ _. split; [reflexivity|].
  rewrite (proper_parsed _ world_proper) in HT. congruence.
Qed.
Lemma dyn_first : forall parts, ~ Overruled dynroute world_template parts.
Proof.
  intros parts (pre & name & rest & v & rest' & p & m & h & E & _ & HI & HP). destruct (dyn_read _ _ _ _ HI HP) as (_ & E').
  rewrite E in E'. apply app_inv_head in E'. discriminate E'.
Qed.
Lemma dyn_binds : forall parts ps, Binds world_template parts ps -> exists v, v <> [] /\ parts = [B "hello"; v] /\ ps = [(B "world-name", v)].
Proof.
  intros parts ps H. inversion H as [|s t parts' ps' H1|]; subst. inversion H1 as [| |name v t parts'' ps'' Hv H2]; subst. inversion H2; subst. exists v. auto.
Qed.
Lemma name_in : forall path v, v <> [] -> PathOf [B "hello"; v] (normalize path) -> NameIn path v.
Proof.
  intros path v Hv [HF HP]. split; [exact Hv|]. split; [exact (Forall_inv (Forall_inv_tail HF))|]. destruct (normalize_strips path) as [k Hk].
  destruct HP as [[_ E]|[_ E]]; rewrite E in Hk; rewrite Hk; cbn [join_slash].
  - exists k. cbn [app]. rewrite <- ?app_assoc. reflexivity.
  - exists (S k). cbn [app repeat]. rewrite <- ?app_assoc. cbn [app]. rewrite <- ?app_assoc. reflexivity.
Qed.
Lemma name_normal : forall path v, NameIn path v -> normalize path = SLASH :: join_slash [B "hello"; v].
Proof.
  intros path v (Hv & Hs & n & ->). destruct v as [|c v _] using rev_ind; [destruct (Hv eq_refl)|].
  rewrite <- app_assoc. cbn [app]. change (B "/hello/" ++ v ++ c :: repeat SLASH n) with (B "/hello/" ++ (v ++ c :: repeat SLASH n)). rewrite app_assoc.
  rewrite normalize_eats; [rewrite <- app_assoc; reflexivity|cbn; lia|]. intros ->. apply Hs. apply in_or_app. right. left. reflexivity.
Qed.
Lemma name_parts : forall path v parts, NameIn path v -> PathOf parts (normalize path) -> parts = [B "hello"; v].
Proof.
  intros path v parts HN [HF HP]. pose proof HN as (Hv & Hs & _). rewrite (name_normal _ _ HN) in HP.
  assert (HF2 : Forall (fun e => ~ In SLASH e) [B "hello"; v]).
  { apply Forall_cons; [apply not_in_str; reflexivity|]. apply Forall_cons; [exact Hs|apply Forall_nil]. }
  destruct HP as [[_ E]|[Hne E]]; injection E as E.
  - destruct parts as [|p0 parts]; [discriminate E|]. rewrite <- (split_join (p0 :: parts)); [|discriminate|exact HF].
    rewrite <- (split_join [B "hello"; v]); [|discriminate|exact HF2]. f_equal. symmetry. exact E.
  - exfalso. destruct v as [|c v _] using rev_ind; [destruct (Hv eq_refl)|]. apply (f_equal (fun l => last l x00)) in E. rewrite last_last in E.
    change (x68 :: x65 :: x6c :: x6c :: x6f :: SLASH :: v ++ [c]) with ((B "hello/" ++ v) ++ [c]) in E. 
    rewrite last_last in E. apply Hs. apply in_or_app. right. left. exact E.
Qed.
Lemma dyn_place : forall r R r1 path, r_path r = normalize path -> Place dynroute r R r1 ->
  (exists v, NameIn path v /\ R = (fun m h => In (template_text world_template, m, h) (registered dynroute)) /\ r1 = set_params (add_params (r_params r) [(B "world-name", v)]) r) \/
  (path = B "/" /\ R = (fun _ _ => False) /\ r1 = r).
Proof.
  intros r R r1 path Hp [H _|p t parts ps _ HPa HPr (m & h & HI) HB _|_ HPa _].
  - destruct (H dyn_params).
  - left. destruct (dyn_read _ _ _ _ HI HPr) as (-> & ->). destruct (dyn_binds _ _ HB) as (v & Hv & -> & ->). exists v. rewrite Hp in HPa.
    split; [exact (name_in _ _ Hv HPa)|]. split; reflexivity.
  - right. rewrite Hp in HPa. apply pathof_root in HPa. apply (proj1 (normalize_root _)) in HPa. split; [exact HPa|]. split; reflexivity.
Qed.
Lemma dyn_site : forall q, h_method (q_head q) <> TRACE ->
  Site office std_defs dynroute (fun h f => DynrouteAnswer (h_proto h) (h_method h) (h_decoded h) (reply std_defs h f)) same_world q.
Proof.
  intros q HT r h r1 w resp w1 r' HS HD HR. destruct (shows_sees _ _ HS) as [S1 S2 S3 _ S4]. unfold same_world.
  destruct HD as [r0 R r1 m h a HA HL HRm Hm HW|r0 R r1 a HA HL H1 H2 H3 HW|r0 R r1 a HA HL H1 H2 HW|r0 p h ps HA HN HPO Hps Hc|r0 ps HA HN HPO Hps Hc].
  - apply no_aliases in HA; [|reflexivity]. subst r0. destruct (dyn_place (set_path (normalize (r_path r)) r) _ _ (r_path r) eq_refl HL) as [(v & HV & -> & ->)|(_ & -> & _)]; [|destruct HRm].
    destruct (dyn_template _ _ _ world_proper HRm) as (_ & -> & ->). destruct HR as [v' HR].
    assert (V : kv_value (r_params (set_allowed a (set_params (add_params (r_params (set_path (normalize (r_path r)) r)) [(B "world-name", v)]) (set_path (normalize (r_path r)) r)))) (B "world-name") = v)
      by (unfold kv_value, kv_value_or, kv_get; cbn; rewrite S4; reflexivity).
    unfold dynamic_handler in HR. rewrite V in HR. inversion HR; subst. eexists. split; [reflexivity|]. split; [reflexivity|]. split.
    + unfold set_rbody, new_response. cbn [f_code f_status f_ctype f_te f_headers f_cookies f_att].
      rewrite (page_reply (q_head q) 200 []); [|reflexivity|intros d [<-|[]]; reflexivity]. rewrite S2 in HV.
      apply (Dy_name _ _ _ v HV). rewrite <- S1. destruct Hm as [Hm|[Hm _]]; auto.
    + split; [reflexivity|]. cbn. split; [exact S1|]. split; [exact S3|]. intros d [<-|[]]. reflexivity.
  - apply no_aliases in HA; [|reflexivity]. subst r0. change (error_choice dynroute 405%N) with (@default_method_not_allowed office) in HR.
    apply run_405 in HR. destruct HR as (-> & -> & ->). eexists. split; [reflexivity|]. split; [reflexivity|]. rewrite S1 in *.
    destruct (dyn_place (set_path (normalize (r_path r)) r) _ _ (r_path r) eq_refl HL) as [(v & HV & -> & ->)|(HV & -> & ->)]; rewrite S2 in HV; (split; [|split; [reflexivity|cbn; split; [exact S1|split; [exact S3|intros d [<-|[]]; reflexivity]]]]).
    + assert (a = B "GET") as ->.
      { apply (allow_one _ GET a) in HW; [exact HW|]. intros m. split; [intros (h' & E); destruct (dyn_template _ _ _ world_proper E) as (_ & -> & _); reflexivity|].
        intros ->. exists dynamic_handler. left. reflexivity. }
      rewrite page_reply; [|reflexivity|intros d [<-|[]]; reflexivity]. apply (Dy_method _ _ _ v HV).
      * intros E. rewrite E in *. apply (H1 dynamic_handler). left. reflexivity.
      * intros E. apply (H2 E dynamic_handler). left. reflexivity.
    + assert (a = []) as ->. { destruct HW as (ms & _ & Hi & ->). destruct ms as [|m ms]; [reflexivity|]. destruct (proj1 (Hi m) (or_introl eq_refl)) as (h' & []). }
      rewrite page_reply; [|reflexivity|intros d [<-|[]]; reflexivity]. apply Dy_root. exact HV.
  - congruence.
  - destruct Hc.
  - apply no_aliases in HA; [|reflexivity]. subst r0. change (error_choice dynroute 404%N) with (@default_all_errors office) in HR.
    apply run_404 in HR. destruct HR as (-> & -> & ->). eexists. split; [reflexivity|]. split; [reflexivity|].
    cbn [r_path set_path] in *. rewrite S2 in *. split; [|split; [reflexivity|cbn; split; [exact S1|split; [exact S3|intros d [<-|[]]; reflexivity]]]].
    rewrite page_reply; [|reflexivity|intros d [<-|[]]; reflexivity]. apply Dy_none.
    + intros E. apply (HPO dyn_params). rewrite E. split; [apply Forall_nil|]. left. split; [discriminate|reflexivity].
    + intros v HV. destruct HN as [[C _]|(_ & HN)]; [destruct (C dyn_params)|]. cbn [r_path set_path] in HN.
      set (parts := [B "hello"; v]) in *. assert (E : parts = [B "hello"; v]) by reflexivity.
      assert (HPa : PathOf parts (normalize (h_decoded (q_head q)))).
      { rewrite (name_normal _ _ HV). split; [constructor; [apply not_in_str; reflexivity|constructor; [exact (proj1 (proj2 HV))|constructor]]|]. left. split; [exact (proj1 HV)|reflexivity]. }
      specialize (HN parts HPa).
      apply (dyn_first parts). apply (HN (template_text world_template) GET dynamic_handler world_template [(B "world-name", v)]); [left; reflexivity|exact (proper_parsed _ world_proper)|].
      rewrite E. apply Bd_static. change [(B "world-name", v)] with ((match B "world-name" with [] => [] | _ => [(B "world-name", v)] end) ++ []).
      apply Bd_wild; [exact (proj1 HV)|constructor].
Qed.

(* ---- middlewares ---- *)
Ltac runs := repeat match goal with H : HSteps _ _ _ _ _ _ _ |- _ => cbn in H; inversion H; subst; clear H end.
Definition logs (text : req -> list bytes) (q : req) (w w' : world office) : Prop :=
  w' = (Office (of_log (fst w) ++ text q) (of_path (fst w)) (of_stopped (fst w)), snd w).
Definition api_handler : handler office := behind [hello_world_middleware; second_middleware] beautiful_handler.
Lemma mid_registered : registered middlewares = [(B "/api/v1/hello", GET, api_handler)].
Proof. reflexivity. Qed.
Lemma mid_static : ~ HasParams middlewares.
Proof.
  intros (p & m & h & t & name & H1 & H2 & H3). rewrite mid_registered in H1. destruct H1 as [H1|[]]. injection H1 as <- <- <-.
  vm_compute in H2. injection H2 as <-. cbn in H3. intuition discriminate.
Qed.
Lemma logs_nothing : forall (text : req -> list bytes) q (w : world office), text q = [] -> logs text q w w.
Proof. intros text q [[l p s] t] H. unfold logs. rewrite H, app_nil_r. reflexivity. Qed.
Lemma mid_site : forall q, h_method (q_head q) <> TRACE -> Site office std_defs middlewares (AnswerText (answer_of middlewares_answers))
  (logs (fun q => middlewares_log (h_method (q_head q)) (h_decoded (q_head q)))) q.
Proof.
  intros q HT r h r1 w resp w1 r' HS HD HR. destruct (shows_sees _ _ HS) as [S1 S2 S3 _ _].
  destruct (static_dispatch _ _ _ _ _ mid_static HD) as (r0 & HA & C); [congruence|]. apply no_aliases in HA; [|reflexivity]. subst r0.
  rewrite mid_registered in C. change (caught middlewares) with (@nil (bytes * handler office)) in C. cbn [r_path set_path] in C. rewrite S1, S2 in *.
  unfold AnswerText, answer_of, middlewares_answers.
  destruct C as [(m & a & HI & Hm & ->)|[(a & m & h0 & -> & -> & HI & H1 & H2 & HW)|[(p & _ & [] & _)|(HN & _ & -> & ->)]]].
  - destruct HI as [HI|[]]. injection HI as HI1 HI2 HI3. subst m h. rewrite <- HI1.
    destruct HR as [v' HR]. runs. exists new_response. split; [reflexivity|]. split; [reflexivity|]. split.
    + unfold new_response. change default_content_type with (B "text/html"). rewrite page_reply; [|reflexivity|intros d [<-|[]]; reflexivity]. destruct Hm as [Hm|[Hm _]]; [rewrite <- Hm|rewrite Hm]; reflexivity.
    + split; [|cbn; split; [exact S1|split; [exact S3|intros d [<-|[]]; reflexivity]]]. unfold logs, middlewares_log. rewrite <- HI1. change (beqb (B "/api/v1/hello") (B "/api/v1/hello")) with true. cbn iota.
      destruct w as [[l p s] t]. unfold log_println. cbn [fst snd of_log of_path of_stopped]. rewrite <- !app_assoc. destruct Hm as [Hm|[Hm _]]; [rewrite <- Hm|rewrite Hm]; reflexivity.
  - destruct HI as [HI|[]]. injection HI as HI1 <- <-. change (error_choice middlewares 405%N) with (@default_method_not_allowed office) in HR.
    apply run_405 in HR. destruct HR as (-> & -> & ->). eexists. split; [reflexivity|]. split; [reflexivity|].
    assert (a = B "GET") as ->.
    { apply (allow_one _ GET a) in HW; [exact HW|]. intros m. rewrite <- HI1. split; [intros (h' & [E|[]]); congruence|intros ->; eexists; left; reflexivity]. }
    assert (HG : h_method (q_head q) <> GET /\ h_method (q_head q) <> HEAD).
    { split; intros E; rewrite E in *; [destruct (H1 api_handler); left; rewrite HI1; reflexivity|destruct (H2 eq_refl api_handler); left; rewrite HI1; reflexivity]. }
    split; [|split; [|cbn; split; [exact S1|split; [exact S3|intros d [<-|[]]; reflexivity]]]].
    + rewrite page_reply; [|reflexivity|intros d [<-|[]]; reflexivity]. rewrite <- HI1. change (beqb (B "/api/v1/hello") (B "/api/v1/hello")) with true. cbn iota.
      destruct HG as [G1 G2]. destruct (h_method (q_head q)); try reflexivity; congruence.
    + apply logs_nothing. unfold middlewares_log. destruct HG as [G1 G2]. destruct (beqb _ _); [|reflexivity]. destruct (h_method (q_head q)); try reflexivity; congruence.
  - change (error_choice middlewares 404%N) with (@default_all_errors office) in HR. apply run_404 in HR. destruct HR as (-> & -> & ->).
    assert (E : beqb (normalize (h_decoded (q_head q))) (B "/api/v1/hello") = false).
    { destruct (beqb (normalize (h_decoded (q_head q))) (B "/api/v1/hello")) eqn:E; [|reflexivity]. apply beqb_eq in E. destruct (HN GET api_handler). left. rewrite E. reflexivity. }
    eexists. split; [reflexivity|]. split; [reflexivity|]. split; [|split; [|cbn; split; [exact S1|split; [exact S3|intros d [<-|[]]; reflexivity]]]].
    + rewrite page_reply; [|reflexivity|intros d [<-|[]]; reflexivity]. rewrite E. reflexivity.
    + apply logs_nothing. unfold middlewares_log. rewrite E. reflexivity.
Qed.

(* ---- combined ---- *)
Section Combined.
Variable files : bytes -> fields.
Variable body_error : bout -> bytes.
Definition combined_ops : list (list nat * rop office) := match combined files body_error with Some os => os | None => [] end.
Lemma combined_starts : combined files body_error = Some combined_ops.
Proof. reflexivity. Qed.
Notation logging := (log_requests [log_println]).
Definition stress_handler : handler office := behind [logging; recovering] stressful.
Lemma com_registered : registered combined_ops = [(B "/stress", GET, stress_handler); (B "/", POST, behind [logging] (index_say body_error));
  (B "/shutdown", POST, behind [logging] shutdown); (B "/hello/world", GET, behind [logging] world_page); (B "/hello/easter", GET, behind [logging] easter_page)].
Proof. reflexivity. Qed.
Lemma com_caught : exists pp, new_path (B "/static") (B "examples/combined/static") = Some pp /\
  caught combined_ops = [(B "/static", behind [logging] (static_handler pp of_path with_path (fun _ => files)))].
Proof. eexists. split; reflexivity. Qed.
Lemma com_aliases : aliases combined_ops = [(B "/", B "/static/index.html"); (B "/favicon.ico", B "/static/favicon.ico")].
Proof. reflexivity. Qed.
Lemma com_static : ~ HasParams combined_ops.
Proof.
  intros (p & m & h & t & name & H1 & H2 & H3). rewrite com_registered in H1. cbn [In] in H1.
  repeat (destruct H1 as [H1|H1]; [injection H1 as <- <- <-; vm_compute in H2; injection H2 as <-; cbn in H3; intuition discriminate|]). destruct H1.
Qed.
Definition rings (q : req) (w w' : world office) : Prop :=
  let h := q_head q in
  w' = (Office (of_log (fst w) ++ [combined_log (h_method h) (h_decoded h) (field_pairs (h_lines h))]) (of_path (fst w))
          (of_stopped (fst w) || (beqb (normalize (h_decoded h)) (B "/shutdown") && method_eqb (h_method h) POST)), snd w).

Lemma has_easter : forall l, pairs_has l (B "easter") = existsb (fun e => same_keyb (fst e) (B "easter")) l.
Proof.
  induction l as [|[k v] l IH]; [reflexivity|]. cbn [pairs_has existsb fst]. rewrite same_keyb_fold, equal_fold_sym, <- IH. destruct (equal_fold k (B "easter")); reflexivity.
Qed.
Lemma run_logged : forall more (h : handler office) w r v resp w1 r', HRun more (behind [logging] h w r) r v resp w1 r' ->
  (forall w0, exists f w', h w0 r = HRet (Some f) w' /\ (f_code f =? 439)%N = false) ->
  exists f w', h w r = HRet (Some f) w' /\ resp = Some f /\ r' = r /\ w1 = (log_println (log_line r (f_code f)) (fst w'), snd w').
Proof.
  intros more h w r v resp w1 r' [v' HR] H. destruct (H w) as (f & w' & E & Hc). exists f, w'. split; [exact E|].
  cbn [behind fold_right] in HR. unfold log_requests in HR. cbn [behind fold_right] in HR. rewrite E in HR. cbn [hbind] in HR. rewrite Hc in HR. inversion HR; subst.
  match goal with H : HSteps _ (HRet _ _) _ _ _ _ _ |- _ => inversion H; subst end. split; [reflexivity|]. split; reflexivity.
Qed.
Lemma run_stress : forall more w r v resp w1 r', HRun more (stress_handler w r) r v resp w1 r' ->
  resp = Some (resp_error (Some (EHttp ErrInternalServerError)) [] new_response) /\ r' = r /\ w1 = (log_println (log_line r 500%N) (fst w), snd w).
Proof.
  intros more w r v resp w1 r' [v' HR].
  change (stress_handler w r) with (HTry HCrash (HRet (Some (resp_error (Some (EHttp ErrInternalServerError)) [] new_response)) w)
    (fun resp w' => hbind (HRet resp w') (fun resp w' => match resp with None => HCrash | Some f => if (f_code f =? 439)%N then HRet resp w'
      else HLook (fun r' => HRet resp (fold_left (fun v l => l (log_line r' (f_code f)) v) [log_println] (fst w'), snd w')) end))) in HR.
  inversion HR as [| | | | |p q k r0 v0 resp0 w0 r2 v2 o r3 v3 A1 A2|p q k r0 v0 r2 v2 resp0 w0 r3 v3 o r4 v4 A1 A2 A3|]; subst; [inversion A1|].
  inversion A1; subst. inversion A2; subst. cbn [hbind] in A3.
  change ((f_code (resp_error (Some (EHttp ErrInternalServerError)) [] new_response) =? 439)%N) with false in A3. cbn iota in A3.
  change (f_code (resp_error (Some (EHttp ErrInternalServerError)) [] new_response)) with 500%N in A3.
  inversion A3; subst. match goal with H : HSteps _ (HRet _ _) _ _ _ _ _ |- _ => inversion H; subst end. split; [reflexivity|]. split; reflexivity.
Qed.
Ltac paged c hs b := etransitivity; [refine (page_reply _ c hs b _ _); [reflexivity|intros d [<-|[]]; reflexivity]|].
Lemma com_site : forall q, h_method (q_head q) <> TRACE -> ~ AboutFiles (h_decoded (q_head q)) ->
  Site office std_defs combined_ops (AnswerText (answer_of combined_answers)) rings q.
Proof.
  intros q HT HF r h r1 w resp w1 r' HS HD HR. destruct (shows_sees _ _ HS) as [S1 S2 S3 S4 _].
  destruct (static_dispatch _ _ _ _ _ com_static HD) as (r0 & HA & C); [congruence|].
  assert (r0 = set_path (normalize (r_path r)) r) as ->.
  { destruct HA as [t HI|HI]; [|reflexivity]. exfalso. apply HF. rewrite com_aliases in HI. unfold AboutFiles. rewrite <- S2. destruct HI as [HI|[HI|[]]]; injection HI as HI _; rewrite <- HI; auto. }
  clear HA HD. rewrite com_registered in C. cbn [r_path set_path] in C. rewrite S1, S2 in *.
  assert (HR1 : beqb (normalize (h_decoded (q_head q))) (B "/") = false).
  { destruct (beqb (normalize (h_decoded (q_head q))) (B "/")) eqn:E; [|reflexivity]. apply beqb_eq in E. apply (proj1 (normalize_root _)) in E. destruct HF. left. exact E. }
  destruct com_caught as (pp & _ & Hcaught). rewrite Hcaught in C.
  unfold AnswerText, answer_of, combined_answers, rings, combined_log.
  destruct C as [(m & a & HI & Hm & ->)|[(a & m & h0 & -> & -> & HI & H1 & H2 & HW)|[(p & _ & HI & HP & _)|(HN & _ & -> & ->)]]].
  - cbn [In] in HI. destruct HI as [HI|[HI|[HI|[HI|[HI|[]]]]]]; injection HI as HI1 HI2 HI3; subst m h.
    + (* stress *)
      apply run_stress in HR. destruct HR as (-> & -> & ->).
      eexists. split; [reflexivity|]. split; [reflexivity|]. rewrite <- HI1.
      split; [|split; [|cbn; split; [first [exact S1|congruence]|split; [exact S3|intros d [<-|[]]; reflexivity]]]].
      * unfold resp_error, set_code, new_response. change default_content_type with (B "text/html"). cbn [f_code f_status f_ctype f_te f_headers f_body f_cookies f_att he_code ErrInternalServerError].
        rewrite page_reply; [|reflexivity|intros d [<-|[]]; reflexivity]. destruct Hm as [Hm|[Hm _]]; [rewrite <- Hm|rewrite Hm]; reflexivity.
      * unfold log_println, log_line. cbn [r_method r_path set_allowed set_env set_path fst snd]. rewrite ?S1, ?S2, <- ?HI1. change (beqb (B "/stress") (B "/shutdown")) with false. cbn [andb]. rewrite orb_false_r.
        destruct Hm as [Hm|[Hm _]]; [rewrite <- Hm|rewrite Hm]; reflexivity.
    + rewrite <- HI1 in HR1. discriminate HR1.
    + (* shutdown *)
      destruct Hm as [Hm|[_ Hm]]; [|discriminate Hm].
      apply run_logged in HR; [|intros w0; eexists; eexists; split; reflexivity]. destruct HR as (f & w' & E & -> & -> & ->). cbn in E. injection E as <- <-.
      eexists. split; [reflexivity|]. split; [reflexivity|]. rewrite <- HI1, <- Hm.
      split; [|split; [|cbn; split; [first [exact S1|congruence]|split; [exact S3|intros d [<-|[]]; reflexivity]]]].
      * change (set_code 418%N new_response) with (Fields 418%N [] (B "text/html") [] [] [] [] None). rewrite page_reply; [|reflexivity|intros d [<-|[]]; reflexivity]. rewrite <- Hm. reflexivity.
      * unfold log_println, log_line. cbn [r_method r_path set_allowed set_env set_path fst snd graceful_stop of_log of_path of_stopped]. rewrite ?S1, ?S2, <- ?HI1, <- Hm.
        change (beqb (B "/shutdown") (B "/shutdown")) with true. cbn [andb method_eqb]. rewrite orb_true_r. reflexivity.
    + (* world *)
      apply run_logged in HR; [|intros w0; eexists; eexists; split; reflexivity]. destruct HR as (f & w' & E & -> & -> & ->). cbn in E. injection E as <- <-.
      eexists. split; [reflexivity|]. split; [reflexivity|]. rewrite <- HI1.
      split; [|split; [|cbn; split; [first [exact S1|congruence]|split; [exact S3|intros d [<-|[]]; reflexivity]]]].
      * change (set_rbody ?b new_response) with (Fields 200%N [] (B "text/html") [] [] b [] None). rewrite page_reply; [|reflexivity|intros d [<-|[]]; reflexivity].
        destruct Hm as [Hm|[Hm _]]; [rewrite <- Hm|rewrite Hm]; reflexivity.
      * unfold log_println, log_line. cbn [r_method r_path set_allowed set_env set_path fst snd]. rewrite ?S1, ?S2, <- ?HI1. change (beqb (B "/hello/world") (B "/shutdown")) with false. cbn [andb]. rewrite orb_false_r.
        destruct Hm as [Hm|[Hm _]]; [rewrite <- Hm|rewrite Hm]; reflexivity.
    + (* easter *)
      set (eg := existsb (fun e => same_keyb (fst e) (B "easter")) (field_pairs (h_lines (q_head q)))).
      assert (HE : kv_has (r_headers r) (B "easter") = eg) by (unfold kv_has; rewrite S4; apply has_easter).
      apply run_logged in HR; [|intros w0; unfold easter_page; cbn [r_headers set_allowed set_env set_path]; rewrite HE; destruct eg; eexists; eexists; split; reflexivity].
      destruct HR as (f & w' & E & -> & -> & ->). unfold easter_page in E. cbn [r_headers set_allowed set_env set_path] in E. rewrite HE in E.
      destruct eg eqn:G; cbn in E; injection E as <- <-; (eexists; split; [reflexivity|]; split; [reflexivity|]; rewrite <- HI1;
        split; [|split; [|cbn; split; [first [exact S1|congruence]|split; [exact S3|intros d [<-|[]]; reflexivity]]]]).
      * paged 418%N [(B "Easter", B "Egg")] (B "You have discovered an easter egg! Congratulations!").
        unfold combined_status. fold eg. rewrite G. destruct Hm as [Hm|[Hm _]]; [rewrite <- Hm|rewrite Hm]; reflexivity.
      * unfold log_println, log_line. cbn [r_method r_path set_allowed set_env set_path fst snd]. rewrite ?S1, ?S2, <- ?HI1. change (beqb (B "/hello/easter") (B "/shutdown")) with false. cbn [andb]. rewrite orb_false_r.
        unfold combined_status. fold eg. rewrite G. destruct Hm as [Hm|[Hm _]]; [rewrite <- Hm|rewrite Hm]; reflexivity.
      * paged 200%N (@nil entry) (B "Pretty ordinary page, isn't it?").
        unfold combined_status. fold eg. rewrite G. destruct Hm as [Hm|[Hm _]]; [rewrite <- Hm|rewrite Hm]; reflexivity.
      * unfold log_println, log_line. cbn [r_method r_path set_allowed set_env set_path fst snd]. rewrite ?S1, ?S2, <- ?HI1. change (beqb (B "/hello/easter") (B "/shutdown")) with false. cbn [andb]. rewrite orb_false_r.
        unfold combined_status. fold eg. rewrite G. destruct Hm as [Hm|[Hm _]]; [rewrite <- Hm|rewrite Hm]; reflexivity.
  - change (error_choice combined_ops 405%N) with (behind [logging] (@default_method_not_allowed office)) in HR.
    apply run_logged in HR; [|intros w0; eexists; eexists; split; reflexivity]. destruct HR as (f & w' & E & -> & -> & ->). cbn in E. injection E as <- <-.
    assert (HG : forall m' h', In (normalize (h_decoded (q_head q)), m', h') (registered combined_ops) -> m' <> h_method (q_head q) /\ (h_method (q_head q) = HEAD -> m' <> GET)).
    { intros m' h' Hi. rewrite com_registered in Hi. split; [intros ->; exact (H1 h' Hi)|intros E ->; exact (H2 E h' Hi)]. }
    rewrite com_registered in HG.
    cbn [In] in HI. destruct HI as [HI|[HI|[HI|[HI|[HI|[]]]]]]; injection HI as HI1 HI2 HI3.
    2: { rewrite <- HI1 in HR1. discriminate HR1. }
    all: destruct (HG m h0) as [G1 G2]; [rewrite <- HI1, <- HI2, <- HI3; cbn [In]; tauto|]; subst m h0.
    all: match type of HW with AllowText _ _ => idtac end.
    all: match type of G1 with ?mm <> _ => assert (a = method_string mm) as ->;
      [apply (allow_one _ mm a) in HW; [exact HW|]; intros m; rewrite <- HI1; cbn [In]; split;
        [intros (h' & [E|[E|[E|[E|[E|[]]]]]]); first [congruence|apply (f_equal (fun x => fst (fst x))) in E; discriminate E]|intros ->; eexists; repeat first [left; reflexivity|right]]|] end.
    all: (eexists; split; [reflexivity|]; split; [reflexivity|]; rewrite <- HI1;
      split; [|split; [|cbn; split; [first [exact S1|congruence]|split; [exact S3|intros d [<-|[]]; reflexivity]]]]).
    1, 3, 5, 7: match type of G1 with ?mm <> _ => paged 405%N [(B "Allow", method_string mm)] (@nil byte) end.
    all: unfold log_println, log_line; cbn [r_method r_path set_allowed set_error set_env set_path fst snd]; rewrite ?S1, ?S2, <- ?HI1.
    all: destruct w as [[l p s] t]; cbn [fst snd of_log of_path of_stopped]; destruct (h_method (q_head q)); try congruence; try (destruct (G2 eq_refl); reflexivity); rewrite ?orb_false_r; reflexivity.
  - exfalso. destruct HI as [HI|[]]. injection HI as <- _. apply HF. right. right. apply has_prefix_iff. exact HP.
  - change (error_choice combined_ops 404%N) with (behind [logging] (@default_all_errors office)) in HR. apply run_logged in HR; [|intros w0; eexists; eexists; split; reflexivity].
    destruct HR as (f & w' & E & -> & -> & ->). cbn in E. injection E as <- <-.
    assert (HB : forall p m h, In (p, m, h) (registered combined_ops) -> beqb (normalize (h_decoded (q_head q))) p = false).
    { intros p m h Hi. destruct (beqb (normalize (h_decoded (q_head q))) p) eqn:E; [|reflexivity]. apply beqb_eq in E. subst p. rewrite com_registered in Hi. destruct (HN _ _ Hi). }
    rewrite com_registered in HB. cbn [In] in HB.
    assert (B1 : beqb (normalize (h_decoded (q_head q))) (B "/stress") = false) by (eapply HB; tauto).
    assert (B2 : beqb (normalize (h_decoded (q_head q))) (B "/shutdown") = false) by (eapply HB; tauto).
    assert (B3 : beqb (normalize (h_decoded (q_head q))) (B "/hello/world") = false) by (eapply HB; tauto).
    assert (B4 : beqb (normalize (h_decoded (q_head q))) (B "/hello/easter") = false) by (eapply HB; tauto).
    eexists; split; [reflexivity|]; split; [reflexivity|]. unfold combined_status. rewrite B1, B2, B3, B4. cbn iota.
    split; [|split; [|cbn; split; [first [exact S1|congruence]|split; [exact S3|intros d [<-|[]]; reflexivity]]]].
    + paged 404%N (@nil entry) (@nil byte). reflexivity.
    + unfold log_println, log_line. cbn [r_method r_path set_allowed set_error set_env set_path set_params fst snd]. rewrite ?S1, ?S2. cbn [andb]. rewrite orb_false_r. reflexivity.
Qed.
End Combined.
