(* Lemmas: a server with the built-in router. *)
From Coq Require Import Permutation Sorted.
From Verif Require Import M_Base M_Status M_Method M_Proto M_Uri M_KeyValue M_Query M_Request M_Parser M_Client M_Body
  M_Response M_Serializer M_Suit M_Path M_Radix M_Router S_Static S_KeyValue S_Chunk S_Head S_Parser S_Body S_Response S_Conn S_Split S_Routes S_Router S_Serve
  L_Base L_Path L_Radix L_Radix2 L_Router L_Router2 L_Router4 L_Router5 L_Router6 L_Router7 L_RouterEx L_Static L_Refuse L_Over L_Conn2 L_Conn3.

(* ---- whether a template is beaten can be decided ---- *)
Definition seg_eq_dec : forall a b : seg, {a = b} + {a <> b}.
Proof. intros [x|x] [y|y]; try (right; discriminate); destruct (list_eq_dec L_Base.byte_eq_dec x y) as [->|H]; (left; reflexivity) || (right; congruence). Defined.
Fixpoint beats (t u : list seg) (parts : list bytes) : bool :=
  match t, u, parts with
  | s :: t', s' :: u', v :: parts' =>
      (match s, s' with SWild _, SStatic v' => beqb v' v | _, _ => false end) ||
      (if seg_eq_dec s s' then beats t' u' parts' else false)
  | _, _, _ => false
  end.
Lemma beats_iff : forall t u parts, beats t u parts = true <->
  exists pre name rest v rest', t = pre ++ SWild name :: rest /\ u = pre ++ SStatic v :: rest' /\ nth_error parts (List.length pre) = Some v.
Proof.
  induction t as [|s t IH]; intros u parts.
  - split; [discriminate|]. intros (pre & ? & ? & ? & ? & H & _). destruct pre; discriminate.
  - destruct u as [|s' u].
    + split; [discriminate|]. intros (pre & ? & ? & ? & ? & _ & H & _). destruct pre; discriminate.
    + destruct parts as [|v parts].
      * split; [discriminate|]. intros (pre & ? & ? & ? & ? & _ & _ & H). destruct pre; discriminate.
      * cbn [beats]. rewrite orb_true_iff. split.
        -- intros [H|H].
           ++ destruct s as [?|n]; [discriminate|]. destruct s' as [v'|?]; [|discriminate]. apply beqb_eq in H. subst v'.
              exists [], n, t, v, u. auto.
           ++ destruct (seg_eq_dec s s') as [->|]; [|discriminate]. apply IH in H. destruct H as (pre & n & rest & v0 & rest' & -> & -> & H).
              exists (s' :: pre), n, rest, v0, rest'. auto.
        -- intros (pre & n & rest & v0 & rest' & H1 & H2 & H3). destruct pre as [|p pre].
           ++ cbn in *. injection H1 as -> ->. injection H2 as -> ->. injection H3 as ->. left. apply beqb_eq. reflexivity.
           ++ cbn in *. injection H1 as -> ->. injection H2 as -> ->. right. destruct (seg_eq_dec p p); [|contradiction]. apply IH.
              exists pre, n, rest, v0, rest'. auto.
Qed.
Lemma beaten_dec : forall ts t parts, Beaten ts t parts \/ ~ Beaten ts t parts.
Proof.
  intros ts t parts. destruct (existsb (fun u => beats t u parts) ts) eqn:E.
  - left. apply existsb_exists in E. destruct E as (u & H1 & H2). apply beats_iff in H2. destruct H2 as (pre & n & rest & v & rest' & -> & -> & H).
    exists pre, n, rest, v, rest'. auto.
  - right. intros (pre & n & rest & v & rest' & H1 & H2 & H3). apply not_true_iff_false in E. apply E. apply existsb_exists.
    exists (pre ++ SStatic v :: rest'). split; [exact H2|]. apply beats_iff. exists pre, n, rest, v, rest'. auto.
Qed.

Lemma insert_payload : forall P t p (n n' : node P), insert t p n = Some n' -> n_payload n <> None -> n_payload n' <> None.
Proof.
  intros P t p n n' H Hn. destruct t as [|[s|name] t]; cbn [insert] in H.
  - injection H as <-. discriminate.
  - destruct (statics_get n s) as [c|]; [destruct (insert t p c) as [x|]|destruct (insert t p (new_node None)) as [x|]]; try discriminate H; injection H as <-.
    + rewrite (proj1 (proj2 (change_rest _ n s x))). exact Hn.
    + rewrite (proj1 (proj2 (add_rest _ n s x))). exact Hn.
  - destruct (n_is_wildcard n && negb (beqb name (n_wildcard n))); [discriminate H|].
    destruct (insert t p match n_next n with Some x => x | None => new_node None end); [|discriminate H]. injection H as <-. exact Hn.
Qed.
Lemma insert_all_payload : forall P ts (n n' : node P), insert_all _ ts n = Some n' -> n_payload n <> None -> n_payload n' <> None.
Proof.
  intros P ts. induction ts as [|[t p] ts IH]; intros n n' H Hn; cbn in H; [injection H as <-; exact Hn|].
  destruct (insert t p n) as [m|] eqn:E; [|discriminate H]. apply (IH _ _ H). apply (insert_payload _ _ _ _ _ E Hn).
Qed.
Lemma pathof_root : forall p, PathOf [] p -> p = [SLASH].
Proof. intros p [_ [[_ E]|[C _]]]; [exact E|destruct (C eq_refl)]. Qed.

Lemma join_inj : forall a b, a <> [] -> b <> [] -> Forall slash_free a -> Forall slash_free b -> join_slash a = join_slash b -> a = b.
Proof.
  induction a as [|x a IH]; intros b Ha Hb Fa Fb E; [destruct (Ha eq_refl)|]. destruct b as [|y b]; [destruct (Hb eq_refl)|].
  pose proof (Forall_inv Fa) as Hx. pose proof (Forall_inv Fb) as Hy. apply Forall_inv_tail in Fa, Fb.
  assert (K : forall (u v : bytes) s t, slash_free u -> slash_free v -> u ++ SLASH :: s = v ++ SLASH :: t -> u = v /\ s = t).
  { induction u as [|c u IHu]; intros [|d v] s t Hu Hv Q; cbn in Q.
    - injection Q as Q. auto.
    - injection Q as <- _. destruct Hv. left. reflexivity.
    - injection Q as -> _. destruct Hu. left. reflexivity.
    - injection Q as -> Q. destruct (IHu v s t) as [-> ->]; [intros H; apply Hu; right; exact H|intros H; apply Hv; right; exact H|exact Q|]. auto. }
  destruct a as [|x2 a], b as [|y2 b].
  - cbn in E. congruence.
  - rewrite (join_cons y) in E by discriminate. cbn [join_slash] in E. exfalso. apply Hx. rewrite E. apply in_or_app. right. left. reflexivity.
  - rewrite (join_cons x) in E by discriminate. cbn [join_slash] in E. exfalso. apply Hy. change (join_slash [y]) with y in E. rewrite <- E. apply in_or_app. right. left. reflexivity.
  - rewrite (join_cons x), (join_cons y) in E by discriminate. destruct (K _ _ _ _ Hx Hy E) as [-> E2]. f_equal. apply IH; try discriminate; assumption.
Qed.
Lemma join_snoc_empty : forall a, a <> [] -> join_slash a ++ [SLASH] = join_slash (a ++ [[]]).
Proof.
  induction a as [|x a IH]; intros Ha; [destruct (Ha eq_refl)|]. destruct a as [|x2 a]; [reflexivity|].
  cbn [app]. rewrite !join_cons by discriminate. rewrite <- app_assoc. cbn [app]. rewrite IH by discriminate. reflexivity.
Qed.
(* a path has one list of segments *)
Lemma pathof_unique : forall a b path, PathOf a path -> PathOf b path -> a = b.
Proof.
  assert (Z : forall a : list bytes, last a [x00] <> [] -> join_slash a = [] -> a = []).
  { intros [|x [|y a]] H E; [reflexivity| |]; cbn in E, H; [contradiction|]. destruct x; discriminate E. }
  assert (M : forall a b, Forall slash_free a -> Forall slash_free b -> last a [x00] <> [] -> b <> [] -> join_slash a = join_slash b ++ [SLASH] -> False).
  { intros a b Fa Fb La Hb E. rewrite (join_snoc_empty b Hb) in E. destruct a as [|x a].
    - destruct b as [|y b]; [destruct (Hb eq_refl)|]. rewrite <- (join_snoc_empty _ Hb) in E. symmetry in E. apply app_eq_nil in E. destruct E as [_ E]. discriminate E.
    - apply join_inj in E; [|discriminate|destruct b; discriminate|exact Fa|apply Forall_app; split; [exact Fb|constructor; [intros []|constructor]]].
      rewrite E, last_last in La. apply La. reflexivity. }
  intros a b path [Fa [[La Ea]|[Ha Ea]]] [Fb [[Lb Eb]|[Hb Eb]]]; rewrite Ea in Eb; injection Eb as Eb.
  - destruct a as [|x a]; [symmetry; apply Z; [exact Lb|symmetry; exact Eb]|]. destruct b as [|y b]; [apply Z; [exact La|exact Eb]|].
    apply join_inj; try discriminate; assumption.
  - destruct (M a b Fa Fb La Hb Eb).
  - destruct (M b a Fb Fa Lb Ha (eq_sym Eb)).
  - apply app_inj_tail in Eb. destruct Eb as [Eb _]. apply join_inj; assumption.
Qed.

(* the path of a request is not empty *)
Lemma good_path : forall encoded lim max q, GoodRequest encoded lim max q -> h_decoded (q_head q) <> [].
Proof.
  intros encoded lim max q H. destruct (gr_wf _ _ _ _ H) as (_ & _ & Hp & _ & _ & D & _). destruct (h_path (q_head q)) as [|c p]; [destruct (Hp eq_refl)|]. inversion D; discriminate.
Qed.

Section Dispatch.
Variable W : Type.
Notation handler := (handler W). Notation ops := (list (list nat * rop W)). Notation world := (world W).
Notation mtable := (mtable W).
Notation flat := (L_Router.flat W).

(* where a request is sent *)
Definition Sorted_out (os : ops) (x : runtime W) (r : request) : Prop :=
  (exists R r1, Place os (arrive x r) R r1 /\ Answered R r1 (route x r)) \/
  (Nowhere os (arrive x r) /\ (HasParams os -> ~ PathOf [] (r_path (arrive x r))) /\ exists ps, (~ HasParams os -> ps = r_params (arrive x r)) /\
     route x r = (set_params ps (arrive x r), ToError ErrNotFound)).

Lemma static_sorted : forall (os : ops) x r, Running os x -> ~ HasParams os -> Sorted_out os x r.
Proof.
  intros os x r HR Hs. destruct (static_routing W os x r HR Hs) as [S1 S2].
  assert (D : forall l : list (bytes * method * handler), (exists m h, In (r_path (arrive x r), m, h) l) \/ forall m h, ~ In (r_path (arrive x r), m, h) l).
  { induction l as [|[[p m] h] l IH]; [right; intros ? ? []|]. destruct (list_eq_dec L_Base.byte_eq_dec p (r_path (arrive x r))) as [->|Hp].
    - left. exists m, h. left. reflexivity.
    - destruct IH as [(m' & h' & H)|H]; [left; exists m', h'; right; exact H|]. right. intros m' h' [E|E]; [congruence|exact (H _ _ E)]. }
  destruct (D (registered os)) as [H|H].
  - left. eexists. eexists. split; [apply Pl_static; assumption|]. apply S1. exact H.
  - right. split; [left; auto|]. split; [intros C; destruct (Hs C)|]. exists (r_params (arrive x r)). split; [reflexivity|]. rewrite (S2 H). destruct (arrive x r). reflexivity.
Qed.
Lemma dynamic_sorted : forall (os : ops) x r, Running os x -> HasParams os -> r_path (arrive x r) <> [] -> Sorted_out os x r.
Proof.
  intros os x r HR Hd Hne.
  destruct (r_path (arrive x r)) as [|c path] eqn:Hpath; [destruct (Hne eq_refl)|]. clear Hne.
  destruct (L_Base.byte_eq_dec c SLASH) as [->|Hc].
  2: { right. split; [|split].
    - right. split; [exact Hd|]. intros parts HP. exfalso. apply Hc. destruct HP as [_ [[_ E]|[_ E]]]; rewrite Hpath in E.
      + injection E as E _. exact E.
      + destruct parts; cbn in E; congruence.
    - intros _ C. apply pathof_root in C. rewrite Hpath in C. injection C as C _. exact (Hc C).
    - exists (r_params (arrive x r)). split; [intros H; contradiction|].
      destruct (running_inv W os x HR) as (routes & R1 & R2 & R3 & R4 & _ & _ & [[Hs _]|[_ (n & Ht & Hn)]]); [contradiction|].
      unfold route. rewrite Ht, Hpath. unfold match_path. rewrite (proj2 (L_Base.beq_neq c SLASH) Hc). reflexivity. }
  destruct (path_parts path) as (parts & HP). rewrite <- Hpath in HP.
  destruct (running_inv W os x HR) as (routes & R1 & R2 & R3 & R4 & _ & _ & [[Hs _]|[_ (n & Ht & Hn)]]); [contradiction|].
  set (r' := arrive x r) in *.
  assert (HI : forall e, In e (flat routes) <-> In e (registered os)).
  { intros e. split; apply Permutation_in; [exact R2|apply Permutation_sym; exact R2]. }
  assert (HE : forall p t, In (p, t) routes -> exists m h, In (p, m, h) (registered os) /\ In (m, h) t).
  { intros p t Hi. destruct R1 as (_ & W2 & _). rewrite Forall_forall in W2. pose proof (W2 _ Hi) as Hne. cbn in Hne.
    destruct t as [|[m h] t]; [contradiction|]. exists m, h. split; [|left; reflexivity]. apply HI. apply (in_flat W). exists ((m, h) :: t). split; [exact Hi|left; reflexivity]. }
  assert (HT : Forall (fun e : bytes * mtable => exists t, tparse (fst e) = inr t) routes).
  { apply Forall_forall. intros [p t] Hi. destruct (HE p t Hi) as (m & h & H1 & _). destruct (R4 _ H1) as (u & Hu). exists u. exact Hu. }
  rewrite (as_tree_insert W _ _ HT) in Hn.
  assert (HIn : forall t, In t (map fst (tree_items W routes)) <-> exists p m h, In (p, m, h) (registered os) /\ tparse p = inr t).
  { intros t. rewrite in_map_iff. split.
    - intros ([u e] & E & H). cbn [fst] in E. subst u. unfold tree_items in H. apply in_map_iff in H. destruct H as ([p mt] & E & H). cbn [fst snd] in E. injection E as E _.
      destruct (HE p mt H) as (m & h & H1 & _). exists p, m, h. split; [exact H1|]. destruct (R4 _ H1) as (u & Hu). cbn [fst] in Hu. unfold tpl in E. rewrite Hu in *. congruence.
    - intros (p & m & h & H1 & H2). apply HI in H1. apply (in_flat W) in H1. destruct H1 as (mt & H1 & _).
      exists (tpl p, tree_endpoint mt). split; [unfold tpl; rewrite H2; reflexivity|]. unfold tree_items. apply in_map_iff. exists (p, mt). auto. }
  assert (HB : forall t, Beaten (map fst (tree_items W routes)) t parts <-> Overruled os t parts).
  { intros t. unfold Beaten, Overruled. split.
    - intros (pre & name & rest & v & rest' & B1 & B2 & B3). apply HIn in B2. destruct B2 as (p & m & h & B2 & B4). exists pre, name, rest, v, rest', p, m, h. auto.
    - intros (pre & name & rest & v & rest' & p & m & h & B1 & B2 & B3 & B4). exists pre, name, rest, v, rest'. split; [exact B1|]. split; [|exact B2].
      apply HIn. exists p, m, h. auto. }
  destruct (tree_match_any (endpoint W) (tree_items W routes) (Some (Endpoint no_methods [])) n parts (r_path r') (r_params r') Hn HP) as [M1 M2].
  destruct (match_path n (r_path r') (r_params r')) as [e params|params| |] eqn:EM; try contradiction.
  - destruct M2 as [(t & ps & U1 & U2 & U3 & U4)|(U1 & U2 & U3 & U4)].
    + left. assert (HnB : ~ Overruled os t parts) by (rewrite <- HB; exact U3).
      unfold tree_items in U1. apply in_map_iff in U1. destruct U1 as ([p mt] & U0 & U1). cbn [fst snd] in U0. injection U0 as Et Ee.
      destruct (HE p mt U1) as (m & h & I1 & _). assert (I2 : tparse p = inr t).
      { destruct (R4 _ I1) as (u & Hu). cbn [fst] in Hu. unfold tpl in Et. rewrite Hu in *. congruence. }
      eexists. eexists. split; [eapply (Pl_template W os r' p t parts ps); try eassumption; exists m, h; exact I1|].
      unfold route. rewrite Ht. fold r'. rewrite EM, U4, <- Ee. apply answered.
      * intros m0 h0. rewrite tree_endpoint_methods by (eapply wf_methods; eassumption). rewrite <- (in_table W routes p mt R1 U1). apply HI.
      * eapply allow_ext; [|apply tree_endpoint_allow; eapply wf_methods; eassumption]. intros m0. split; intros (h0 & H0); exists h0.
        -- apply HI. apply (in_table W routes p mt R1 U1). exact H0.
        -- apply (in_table W routes p mt R1 U1). apply HI. exact H0.
    + left. exists (fun _ _ => False), r'. split.
      * rewrite U2 in HP. apply Pl_root; [exact Hd|exact HP|]. right. split; [exact Hd|]. intros parts' HP'. rewrite <- (pathof_unique _ _ _ HP HP').
        intros p m h t ps Q1 Q2 Q3. inversion Q3; subst. exfalso. apply U3. apply HIn. exists p, m, h. auto.
      * unfold route. rewrite Ht. fold r'. rewrite EM, U4. injection U1 as <-.
        assert (E : set_params (r_params r') r' = r') by (destruct r'; reflexivity). rewrite E.
        split; [intros h []|]. split; [intros h _ _ []|]. split.
        -- intros _ _. unfold to_endpoint, get_handler, no_methods. cbn [ep_methods ep_allow]. destruct (r_method _); reflexivity.
        -- exists []. split; [unfold to_endpoint, get_handler, no_methods; cbn [ep_methods ep_allow]; destruct (r_method _); reflexivity|].
           exists []. split; [constructor|]. split; [|reflexivity]. intros m. split; [intros []|intros (h & [])].
  - right. split; [|split].
    + right. split; [exact Hd|]. intros parts' HP'. rewrite <- (pathof_unique _ _ _ HP HP'). intros p m h t ps Q1 Q2 Q3. apply HB. destruct (beaten_dec (map fst (tree_items W routes)) t parts) as [H|H]; [exact H|].
      exfalso. destruct (M1 t ps) as (e & _ & K); [apply HIn; exists p, m, h; auto|exact Q3|exact H|]. discriminate K.
    + intros _ C. fold r' in C. apply pathof_root in C. rewrite C in EM. cbn in EM.
      destruct (n_payload n) as [e|] eqn:EP; [discriminate EM|]. apply (insert_all_payload _ _ _ _ Hn); [discriminate|exact EP].
    + exists params. split; [intros H; contradiction|]. unfold route. rewrite Ht. fold r'. rewrite EM. reflexivity.
Qed.

(* ---- the handler that runs ---- *)
Lemma arrives : forall (os : ops) x r, Running os x -> PlainAliases os -> Arrives os r (arrive x r).
Proof.
  intros os x r HR HA. destruct (aliased W os x r HR HA) as [A1 A2]. unfold arrive.
  destruct (in_dec (list_eq_dec L_Base.byte_eq_dec) (r_path r) (map fst (aliases os))) as [H|H].
  - apply in_map_iff in H. destruct H as ([f t] & E & H). cbn [fst] in E. subst f. rewrite (A1 _ _ H eq_refl).
    exact (Ar_alias W os r t H).
  - rewrite (A2 H). apply Ar_plain. exact H.
Qed.
Lemma arrive_method : forall (os : ops) r r0, Arrives os r r0 -> r_method r0 = r_method r.
Proof. intros os r r0 H. destruct H; reflexivity. Qed.
Lemma place_method : forall (os : ops) r R r1, Place os r R r1 -> r_method r1 = r_method r.
Proof. intros os r R r1 H. destruct H; reflexivity. Qed.
(* which handlers of a place can run: a place has finitely many *)
Lemma place_has : forall (os : ops) r R r1 m, Place os r R r1 -> (exists h, R m h) \/ (forall h, ~ R m h).
Proof.
  assert (D : forall (l : list (bytes * method * handler)) p m, (exists h, In (p, m, h) l) \/ forall h, ~ In (p, m, h) l).
  { intros l p m. induction l as [|[[p' m'] h] l IH]; [right; intros ? []|].
    destruct (list_eq_dec L_Base.byte_eq_dec p' p) as [->|Hp].
    - destruct (method_eqb m' m) eqn:E.
      + apply method_eqb_eq in E. subst m'. left. exists h. left. reflexivity.
      + destruct IH as [(h' & H)|H]; [left; exists h'; right; exact H|]. right. intros h' [K|K]; [|exact (H _ K)]. injection K as -> _. rewrite method_eqb_refl in E. discriminate.
    - destruct IH as [(h' & H)|H]; [left; exists h'; right; exact H|]. right. intros h' [K|K]; [congruence|exact (H _ K)]. }
  intros os r R r1 m H. destruct H; [apply D|apply D|right; intros h []].
Qed.
Lemma catch_cases : forall (os : ops) path, (exists p h, In (p, h) (caught os) /\ Prefix p path) \/ (forall p h, In (p, h) (caught os) -> ~ Prefix p path).
Proof.
  intros os path. induction (caught os) as [|[p h] l IH]; [right; intros ? ? []|].
  destruct (has_prefix path p) eqn:E.
  - left. exists p, h. split; [left; reflexivity|]. apply has_prefix_iff. exact E.
  - destruct IH as [(p' & h' & H1 & H2)|H]; [left; exists p', h'; split; [right; exact H1|exact H2]|].
    right. intros p' h' [K|K]; [|exact (H _ _ K)]. injection K as <- <-. intros HP. apply has_prefix_iff in HP. congruence.
Qed.
Theorem dispatched : forall (os : ops) x r, Running os x -> PlainAliases os -> Sorted_out os x r ->
  exists h r1, Dispatch os r h r1 /\
    forall w, on_request x w r = HUpdate (fun r0 => fst (route x r0)) (h w r1) /\ fst (route x r) = r1 \/
      exists e r2, on_request x w r = HUpdate (fun r0 => fst (route x r0)) (HUpdate (set_error e) (h w r1)) /\ fst (route x r) = r2 /\ r1 = set_error e r2.
Proof.
  intros os x r HR HA [(R & r1 & HP & (B1 & B2 & B3 & (a & B4 & B5)))|(HN & HPO & ps & Hps & HE)].
  - pose proof (arrives os x r HR HA) as Ha. pose proof (arrive_method os r _ Ha) as Hm0. pose proof (place_method os _ R r1 HP) as Hm1.
    rewrite Hm0 in Hm1. rewrite Hm1 in *.
    destruct (place_has os _ R r1 (r_method r) HP) as [(h & Hh)|Hn].
    + exists h, (set_allowed a r1). split; [eapply Dp_handler; [exact Ha|exact HP|exact Hh|left; reflexivity|exact B5]|]. intros w. left.
      split; [|exact B4]. rewrite (request_runs W x w r h (B1 h Hh)), B4. reflexivity.
    + assert (Hrest : (r_method r = HEAD -> forall h, ~ R GET h) -> exists h r0, Dispatch os r h r0 /\
        forall w, on_request x w r = HUpdate (fun r0 => fst (route x r0)) (h w r0) /\ fst (route x r) = r0 \/
          exists e r2, on_request x w r = HUpdate (fun r0 => fst (route x r0)) (HUpdate (set_error e) (h w r0)) /\ fst (route x r) = r2 /\ r0 = set_error e r2).
      { intros Hg. specialize (B3 Hn Hg). destruct (method_eqb (r_method r) TRACE) eqn:Et.
        - apply method_eqb_eq in Et. exists traced, (set_allowed a r1). rewrite Et in Hn. split; [eapply Dp_trace; eassumption|].
          intros w. left. split; [|exact B4]. rewrite (request_refused W x w r _ B3), B4. f_equal.
          apply (trace_whole W x w (set_allowed a r1)). cbn. congruence.
        - assert (Ht : r_method r <> TRACE) by (intros K; rewrite K in Et; discriminate).
          exists (error_choice os 405%N), (set_error (EHttp ErrMethodNotAllowed) (set_allowed a r1)). split; [eapply Dp_method; eassumption|].
          intros w. right. exists (EHttp ErrMethodNotAllowed), (set_allowed a r1). split; [|auto].
          rewrite (request_refused W x w r _ B3), B4. f_equal. apply (errors_handled W os x w (set_allowed a r1) ErrMethodNotAllowed HR).
          + intros [K _]. apply Ht. cbn in K. congruence.
          + discriminate. }
      destruct (method_eqb (r_method r) HEAD) eqn:Eh.
      * apply method_eqb_eq in Eh. rewrite Eh in Hn. destruct (place_has os _ R r1 GET HP) as [(h & Hh)|Hg].
        -- exists h, (set_allowed a r1). split; [eapply Dp_handler; [exact Ha|exact HP|exact Hh|right; auto|exact B5]|]. intros w. left. split; [|exact B4].
           rewrite (request_runs W x w r h (B2 h Eh Hn Hh)), B4. reflexivity.
        -- apply Hrest. intros _. exact Hg.
      * apply Hrest. intros K. rewrite K in Eh. discriminate.
  - pose proof (arrives os x r HR HA) as Ha. assert (Ht : snd (route x r) = ToError ErrNotFound) by (rewrite HE; reflexivity).
    assert (Hf : fst (route x r) = set_params ps (arrive x r)) by (rewrite HE; reflexivity).
    destruct (catch_cases os (r_path (arrive x r))) as [(p & h & C1 & C2)|C].
    + (* the catcher does not depend on the state of the application *)
      destruct (find_catcher (x_catchers x) (r_path (arrive x r))) as [hq|] eqn:EF.
      * destruct (running_catchers W os x HR) as [K1 K2]. destruct (find_catcher_some W _ _ _ K2 EF) as (q & Q1 & Q2 & Q3).
        exists hq, (set_params ps (arrive x r)). split.
        -- eapply Dp_caught; [exact Ha|exact HN|exact HPO|exact Hps|eapply Permutation_in; [exact K1|exact Q1]|exact Q2|].
           intros p' h' P1 P2. apply (Q3 p' h'); [eapply Permutation_in; [apply Permutation_sym; exact K1|exact P1]|exact P2].
        -- intros w. left. split; [|exact Hf]. rewrite (request_refused W x w r _ Ht), Hf. f_equal. unfold on_err.
           rewrite andb_comm. cbn [is_err]. change (http_error_eqb ErrNotFound ErrMethodNotAllowed) with false. change (http_error_eqb ErrNotFound ErrNotFound) with true. cbn [andb].
           change (r_path (set_params ps (arrive x r))) with (r_path (arrive x r)). rewrite EF. reflexivity.
      * exfalso. rewrite (find_catcher_none W) in EF. apply (EF p h); [|exact C2]. eapply Permutation_in; [apply Permutation_sym; apply (running_catchers W os x HR)|exact C1].
    + exists (error_choice os 404%N), (set_error (EHttp ErrNotFound) (set_params ps (arrive x r))). split; [apply Dp_none; assumption|].
      intros w. right. exists (EHttp ErrNotFound), (set_params ps (arrive x r)). split; [|auto].
      rewrite (request_refused W x w r _ Ht), Hf. f_equal. apply (nothing_caught W os x w (set_params ps (arrive x r)) HR). exact C.
Qed.
End Dispatch.

(* ---- on a connection ---- *)
Lemma route_keeps : forall W (os : list (list nat * rop W)) x, Running os x -> PlainAliases os -> harmless (fun r0 => fst (route x r0)).
Proof.
  intros W os x HR HA r.
  assert (Ha : r_hijacked (arrive x r) = r_hijacked r /\ r_upgrade (arrive x r) = r_upgrade r /\ r_query (arrive x r) = r_query r).
  { destruct (arrives W os x r HR HA); repeat split. }
  assert (Hr : r_hijacked (fst (route x r)) = r_hijacked (arrive x r) /\ r_upgrade (fst (route x r)) = r_upgrade (arrive x r) /\ r_query (fst (route x r)) = r_query (arrive x r)).
  { unfold route. set (r' := arrive x r). clearbody r'. destruct (x_table x) as [t|n].
    - destruct (ep_get t (r_path r')) as [e|]; [|repeat split]. unfold to_endpoint. destruct (get_handler _ _); repeat split.
    - destruct (match_path n (r_path r') (r_params r')); try (repeat split; fail). unfold to_endpoint. destruct (get_handler _ _); repeat split. }
  destruct Ha as (A1 & A2 & A3), Hr as (R1 & R2 & R3). rewrite R1, R2, R3, A1, A2, A3. auto.
Qed.
Lemma set_error_harmless : forall e, harmless (set_error e).
Proof. intros e r. repeat split. intros H. exact H. Qed.

Section Connection.
Variable W : Type.
Variable os : list (list nat * rop W).
Variable x : runtime W.
Hypothesis running : Running os x.
Hypothesis plain : PlainAliases os.

Lemma nonempty_arrives : forall r, r_path r <> [] -> (forall f t, In (f, t) (aliases os) -> t <> []) -> r_path (arrive x r) <> [].
Proof.
  intros r Hp Ha. assert (K : forall s, s <> [] -> normalize s <> []).
  { intros [|c s] Hs; [destruct (Hs eq_refl)|]. destruct (normalize_head c s) as (u & E). rewrite E. discriminate. }
  destruct (arrives W os x r running plain) as [t Ht|_]; cbn [set_path r_path].
  - apply K. exact (Ha _ _ Ht).
  - apply K. exact Hp.
Qed.
Lemma sorted_out : forall reqs q r, Routable os reqs -> In q reqs -> Shows (q_head q) r -> Sorted_out W os x r.
Proof.
  intros reqs q r HRo Hq (r0 & HM & HV & _).
  assert (Hp : r_path r = h_decoded (q_head q)) by (rewrite (sv_path _ _ HV); apply (mn_path _ _ _ HM)).
  pose proof running as HR. destruct (running_inv W os x HR) as (routes & _ & _ & _ & _ & _ & _ & [[Hs _]|[Hd _]]).
  - apply static_sorted; assumption.
  - destruct (HRo Hd) as (H2 & H3). apply dynamic_sorted; [exact running|exact Hd|].
    apply nonempty_arrives; [|exact H2]. rewrite Hp. apply H3. exact Hq.
Qed.
Lemma dispatch_ordinary : forall fbs r h r1, OrdinaryApp fbs os -> Dispatch os r h r1 -> forall w, Ordinary fbs (h w r1).
Proof.
  intros fbs r h r1 (O1 & O2 & O3) H. destruct H as [r0 R r1 m h a Ha HP HR Hm HA|r0 R r1 a|r0 R r1 a|r0 p h ps Ha HN HPO Hps Hi Hp Hl|r0 ps].
  - intros w. destruct HP as [_ _|p t parts ps _ _ _ _ _ _|_ _ _]; [eapply O1; exact HR|eapply O1; exact HR|contradiction].
  - intros w. apply O3. auto.
  - intros w. apply Ta_ret. intros f E. injection E as <-. apply Sd_plain. reflexivity.
  - intros w. eapply O2; [exact Hi|exact Hp].
  - intros w. apply O3. auto.
Qed.
Theorem ordinary_router : forall fbs reqs, OrdinaryApp fbs os -> Routable os reqs ->
  forall q w r, In q reqs -> Shows (q_head q) r -> Ordinary fbs (on_request x w r).
Proof.
  intros fbs reqs HO HRo q w r Hq Hr. destruct (dispatched W os x r running plain (sorted_out reqs q r HRo Hq Hr)) as (h & r1 & HD & HW).
  pose proof (dispatch_ordinary fbs r h r1 HO HD) as Hh. destruct (HW w) as [[-> _]|(e & r2 & -> & _)].
  - apply Ta_update; [apply (route_keeps W os x running plain)|apply Hh].
  - apply Ta_update; [apply (route_keeps W os x running plain)|]. apply Ta_update; [apply set_error_harmless|apply Hh].
Qed.
Lemma dispatched_runs : forall reqs q r more w v resp w1 r', Routable os reqs -> In q reqs -> Shows (q_head q) r ->
  HRun more (on_request x w r) r v resp w1 r' -> exists h r1, Dispatch os r h r1 /\ HRun more (h w r1) r1 v resp w1 r'.
Proof.
  intros reqs q r more w v resp w1 r' HRo Hq Hr (v' & HS). destruct (dispatched W os x r running plain (sorted_out reqs q r HRo Hq Hr)) as (h & r1 & HD & HW).
  exists h, r1. split; [exact HD|]. exists v'. destruct (HW w) as [[E Ef]|(e & r2 & E & Ef & E1)]; rewrite E in HS.
  - inversion HS; subst. assumption.
  - inversion HS as [| | |g k ? ? ? ? ? HS2| | | |]; subst. cbn beta in HS2. inversion HS2; subst. assumption.
Qed.
Theorem dialogue : forall defs reqs0 reqs w past outs w2 closed, Routable os reqs0 -> (forall q, In q reqs -> In q reqs0) ->
  Conversation defs (on_request x) reqs w past outs w2 closed -> Dialogue defs os reqs w past outs w2 closed.
Proof.
  intros defs reqs0 reqs w past outs w2 closed HRo Hi HC. induction HC as [w past|q reqs w past r resp w1 r' out outs w2 closed H1 H2 H3 H4 _ IH|q reqs w past r resp w1 r' out H1 H2 H3 H4].
  - apply Dg_end.
  - destruct (dispatched_runs reqs0 q r _ w _ resp w1 r' HRo (Hi q (or_introl eq_refl)) H1 H2) as (h & r1 & D1 & D2).
    eapply Dg_open; try eassumption. apply IH. intros q' Hq'. apply Hi. right. exact Hq'.
  - destruct (dispatched_runs reqs0 q r _ w _ resp w1 r' HRo (Hi q (or_introl eq_refl)) H1 H2) as (h & r1 & D1 & D2).
    eapply Dg_close; eassumption.
Qed.
End Connection.

Theorem end_to_end : forall CS cparse encoded fresh inside,
  DecoderOk CS cparse encoded fresh inside -> forall max, (max < two64)%Z ->
  forall cfg umax kmax vmax fbs defs, distinct_names defs ->
  forall W (os : list (list nat * rop W)) x, Running os x -> PlainAliases os -> OrdinaryApp fbs os ->
  forall reqs past (st : conn CS (world W)) tail, Routable os reqs ->
  Between umax kmax vmax fbs defs fresh past st ->
  Forall (GoodRequest encoded (cfg_limits cfg umax kmax vmax) max) reqs ->
  Unfinished (cfg_limits cfg umax kmax vmax) tail ->
  stream (k_client st) = concat (map wire reqs) ++ tail ->
  exists n outs closed st1,
    Dialogue defs os reqs (k_world st) past outs (k_world st1) closed /\
    cl_out (k_client st1) = cl_out (k_client st) ++ outs /\
    forall fuel, (n <= fuel)%nat ->
      serve cparse max cfg (on_request x) (on_error x) fuel st =
      close_with cparse max (on_error x) (match closed with None => EndRead | Some _ => EndWrite end) st1.
Proof.
  intros CS cparse encoded fresh inside HD max Hmax cfg umax kmax vmax fbs defs Hdefs W os x HR HA HO reqs past st tail HRo HB HG HU HS.
  destruct (whole_connection CS cparse encoded fresh inside HD max Hmax cfg umax kmax vmax fbs defs Hdefs (world W) (on_request x) (on_error x) reqs past st tail
    (ordinary_router W os x HR HA fbs reqs HO HRo) HB HG HU HS) as (n & outs & closed & st1 & C1 & C2 & C3).
  exists n, outs, closed, st1. split; [|auto]. eapply dialogue; try eassumption. auto.
Qed.

(* ---- refused heads ---- *)
Definition known (p : parser) : Prop := r_proto (p_req p) <> PUnknown.
Lemma apply_header_proto : forall cfg k v r, r_proto (apply_header cfg k v r) = r_proto r.
Proof.
  intros cfg k v r. unfold apply_header. destruct (parse_encoding_string v (c_max_enc_tokens cfg)) as [toks ch].
  repeat match goal with |- context [match ?x with _ => _ end] => destruct x end; reflexivity.
Qed.
Definition still_known (j : jump) : Prop :=
  match j with
  | Goto _ p _ | Ret (RPending p) => known p
  | Ret (RErr p e) => e <> ErrUnsupportedProtocol -> known p
  | _ => True
  end.
Lemma step_known : forall cfg l p d, known p -> still_known (step cfg l p d).
Proof.
  intros cfg l p d H. unfold known in H. destruct l; cbn [step].
  - unfold step_method. destruct (cut d SP) as [[m rest]|].
    + destruct (buf_seglen (p_start p) =? 0)%Z.
      * destruct m as [|c m]; [intros _; exact H|]. destruct (method_parse (c :: m)); cbn; unfold known; cbn; intros; exact H.
      * destruct (buf_append (p_start p) m) as [b|]; cbv zeta; [|intros _; exact H]. destruct (buf_finish b) as [mv b'].
        destruct mv as [|c mv]; [intros _; exact H|]. destruct (method_parse (c :: mv)); cbn; unfold known; cbn; intros; exact H.
    + destruct (buf_append (p_start p) d); [exact H|intros _; exact H].
  - unfold step_path. destruct (cut d LF) as [[ln rest]|].
    + destruct (buf_append (p_start p) ln) as [b|]; [|intros _; exact H]. destruct (buf_finish b) as [line b'].
      unfold M_Parser.request_line. destruct (cut_last line SP) as [[rp pr]|]; [|intros _; exact H]. destruct (last_byte pr) as [c|]; [|exact I].
      set (v := if Byte.eqb c CR then drop_last pr else pr). clearbody v.
      destruct (cut rp x3f) as [[path q]|].
      * destruct path as [|c0 path]; [intros _; exact H|]. destruct (uri_decode (c0 :: path)) as [dp|]; [|intros _; exact H].
        destruct (proto_from_bytes v) eqn:Ev; cbn; unfold known; cbn; try discriminate; intros E; contradiction.
      * destruct rp as [|c0 path]; [intros _; exact H|]. destruct (uri_decode (c0 :: path)) as [dp|]; [|intros _; exact H].
        destruct (proto_from_bytes v) eqn:Ev; cbn; unfold known; cbn; try discriminate; intros E; contradiction.
    + destruct (buf_append (p_start p) d); [exact H|intros _; exact H].
  - unfold step_header_key. destruct d as [|c d]; [exact H|]. destruct (Byte.eqb c LF); [exact I|]. destruct (Byte.eqb c CR); [exact H|].
    destruct (cut (c :: d) x3a) as [[k rest]|].
    + destruct (buf_append (p_key p) k) as [b|]; [|intros _; exact H]. destruct (buf_finish b) as [key b']. cbv zeta.
      destruct (_ >? _)%Z; [intros _; exact H|]. destruct (key_is key _); exact H.
    + destruct (buf_append (p_key p) (c :: d)); [exact H|intros _; exact H].
  - unfold step_content_length. destruct (clen_loop (p_clen p) d) as [n [d'|]]; [|exact H]. destruct d' as [|c d']; [exact I|].
    cbv zeta. destruct (Byte.eqb c CR); [exact H|]. destruct (Byte.eqb c LF); [exact H|]. intros _; exact H.
  - unfold step_content_length_cr. destruct d as [|c d]; [exact H|]. destruct (Byte.eqb c LF); [exact H|intros _; exact H].
  - unfold step_header_value. destruct (cut d LF) as [[v rest]|].
    + destruct (buf_append (p_val p) v) as [b|]; [|intros _; exact H]. destruct (_ >? _)%Z; [intros _; exact H|].
      destruct (buf_finish b) as [raw b']. cbv zeta. destruct (last_byte (trim_prefix_spaces raw)) as [c|]; [|exact I].
      cbn [still_known]. unfold known. cbn [p_req set_p_req]. rewrite apply_header_proto. exact H.
    + destruct (buf_append (p_val p) d) as [b|]; [|intros _; exact H]. destruct (_ >? _)%Z; [intros _; exact H|exact H].
  - unfold step_crlfcr. destruct d as [|c d]; [exact H|]. destruct (Byte.eqb c LF); [exact I|intros _; exact H].
Qed.
Lemma run_known : forall cfg fuel l p d, known p -> still_known (Ret (M_Parser.run cfg fuel l p d)).
Proof.
  intros cfg fuel. induction fuel as [|fuel IH]; intros l p d H; [exact I|]. cbn [M_Parser.run]. pose proof (step_known cfg l p d H) as K.
  destruct (step cfg l p d) as [l' p' d'|r]; [apply IH; exact K|exact K].
Qed.
Lemma feed_known : forall cfg reads p q e rs, known p -> feed cfg p reads = (RErr q e, rs) -> e <> ErrUnsupportedProtocol -> known q.
Proof.
  intros cfg reads. induction reads as [|d reads IH]; intros p q e rs H HF He; cbn [feed] in HF; [discriminate|].
  pose proof (run_known cfg (S (List.length d)) (p_state p) p d H) as K. fold (parse cfg p d) in K.
  destruct (parse cfg p d) as [p1|p1 ex|p1 e1| |]; try discriminate.
  - eapply IH; [exact K|exact HF|exact He].
  - injection HF as -> -> _. exact (K He).
Qed.
Lemma parse_errors : forall cfg reads p q e rs, feed cfg p reads = (RErr q e, rs) ->
  In e [ErrTooLongRequestLine; ErrBadRequest; ErrMethodNotImplemented; ErrURITooLong; ErrURIDecoding; ErrUnsupportedProtocol; ErrHeaderFieldsTooLarge; ErrTooManyHeaders].
Proof.
  assert (HS : forall cfg l p d q e, step cfg l p d = Ret (RErr q e) ->
    In e [ErrTooLongRequestLine; ErrBadRequest; ErrMethodNotImplemented; ErrURITooLong; ErrURIDecoding; ErrUnsupportedProtocol; ErrHeaderFieldsTooLarge; ErrTooManyHeaders]).
  { intros cfg l p d q e H. destruct l; cbn [step] in H; unfold step_method, step_path, M_Parser.request_line, step_header_key, step_content_length, step_content_length_cr, step_header_value, step_crlfcr in H;
    repeat match type of H with
    | context [match ?x with _ => _ end] => lazymatch x with context [match _ with _ => _ end] => fail | _ => destruct x; try discriminate H end
    end; inversion H; subst; cbn [In]; tauto. }
  assert (HR : forall cfg fuel l p d q e, M_Parser.run cfg fuel l p d = RErr q e ->
    In e [ErrTooLongRequestLine; ErrBadRequest; ErrMethodNotImplemented; ErrURITooLong; ErrURIDecoding; ErrUnsupportedProtocol; ErrHeaderFieldsTooLarge; ErrTooManyHeaders]).
  { intros cfg fuel. induction fuel as [|fuel IH]; intros l p d q e H; [discriminate|]. cbn [M_Parser.run] in H. destruct (step cfg l p d) as [l' p' d'|r] eqn:E; [eapply IH; exact H|].
    subst r. eapply HS. exact E. }
  intros cfg reads. induction reads as [|d reads IH]; intros p q e rs H; cbn [feed] in H; [discriminate|].
  destruct (parse cfg p d) as [p1|p1 ex|p1 e1| |] eqn:E; try discriminate; [eapply IH; exact H|]. injection H as -> -> _. eapply HR. exact E.
Qed.
Lemma malformed_refused : forall cfg umax kmax vmax s P p reads, Malformed cfg umax kmax vmax s P ->
  (0 <= c_max_headers cfg)%Z -> (0 <= kmax)%Z -> (0 <= vmax)%Z -> (7 <= umax)%Z -> Ready umax kmax vmax p -> concat reads = s ->
  exists q e, fst (feed cfg p reads) = RErr q e /\ P (he_code e).
Proof.
  intros cfg umax kmax vmax s P p reads HM H1 H2 H3 H4 HR HC. destruct HM as [m l rest e M1 M2 M3 M4|h rest M1 M2 M3|m l rest M1 M2 M3 M4|m rest M1 M2].
  - destruct (refused_line cfg umax kmax vmax p m l rest e reads HR HC M1 M2 M3 M4) as (q & E). exists q, e. auto.
  - exact (over_headers cfg umax kmax vmax p h reads rest HR M1 M2 H1 H2 H3 M3 HC).
  - destruct (long_line cfg umax kmax vmax p m l rest reads HR HC M1 M2 M3 M4) as (q & E). exists q, ErrURITooLong. auto.
  - destruct (long_method cfg umax kmax vmax p m rest reads HR H4 HC M1 M2) as (q & e & E & [-> | ->]); exists q; eexists; (split; [exact E|]); [left|right]; reflexivity.
Qed.
Lemma code_505 : forall cfg reads p q e rs, feed cfg p reads = (RErr q e, rs) -> he_code e <> 505%N -> e <> ErrUnsupportedProtocol.
Proof. intros cfg reads p q e rs _ H ->. apply H. reflexivity. Qed.

(* what the router answers to a head that could not be parsed *)
Lemma refusal_answer : forall W (os : list (list nat * rop W)) x w r e, Running os x -> PlainAliases os -> NoErrorHandlers os -> uses os [] = [] ->
  In e [ErrTooLongRequestLine; ErrBadRequest; ErrMethodNotImplemented; ErrURITooLong; ErrURIDecoding; ErrUnsupportedProtocol; ErrHeaderFieldsTooLarge; ErrTooManyHeaders] ->
  on_error x w r e = HUpdate (run_mutators (x_mutators x)) (HUpdate (set_error (EHttp e)) (HRet (Some (set_code (he_code e) new_response)) w)).
Proof.
  intros W os x w r e HR HA HN HU He. unfold on_error. f_equal. rewrite (errors_handled W os x w _ e HR).
  - unfold error_choice. rewrite HU. cbn [behind fold_right]. rewrite !(handler_for_default W os _ HN). rewrite N.eqb_refl.
    assert (E : (he_code e =? AllErrors)%N = false /\ (he_code e =? 405)%N = false).
    { cbn [In] in He. repeat destruct He as [<-|He]; try contradiction; split; reflexivity. }
    destruct E as [-> ->]. reflexivity.
  - intros [_ E]. subst e. cbn [In] in He. repeat destruct He as [He|He]; try contradiction; discriminate.
  - intros E. subst e. cbn [In] in He. repeat destruct He as [He|He]; try contradiction; discriminate.
Qed.
Theorem refused : forall CS (cparse : CS -> bytes -> bool -> CS * (bytes * bytes * option cerr)) (fresh : CS -> Prop) max cfg umax kmax vmax fbs defs, distinct_names defs ->
  (0 <= c_max_headers cfg)%Z -> (0 <= kmax)%Z -> (0 <= vmax)%Z -> (7 <= umax)%Z ->
  forall W (os : list (list nat * rop W)) x, Running os x -> PlainAliases os -> NoErrorHandlers os -> uses os [] = [] ->
  forall past (st : conn CS (world W)) s P, Between umax kmax vmax fbs defs fresh past st -> stream (k_client st) = s -> Malformed cfg umax kmax vmax s P ->
  exists n c out st1, P c /\
    (forall fuel, (n <= fuel)%nat -> serve cparse max cfg (on_request x) (on_error x) fuel st = (EndParse, st1)) /\
    k_world st1 = k_world st /\ cl_out (k_client st1) = cl_out (k_client st) ++ [out] /\
    (c <> 505%N -> r_proto (p_req (k_parser st)) <> PUnknown ->
       exists v, v <> PUnknown /\
       out = response_text (version_of v) (itoa_N c) (sent_reason (set_code c new_response)) (sent_fields defs past (set_code c new_response)) []).
Proof.
  intros CS cparse fresh max cfg umax kmax vmax fbs defs Hdefs H1 H2 H3 H4 W os x HR HA HN HU past st s P HB HS HM.
  destruct (malformed_refused cfg umax kmax vmax s P (k_parser st) (reads_of (k_client st)) HM H1 H2 H3 H4 (bt_ready _ _ _ _ _ _ _ _ HB)) as (q & e & HF & HP).
  { rewrite reads_concat. exact HS. }
  destruct (feed cfg (k_parser st) (reads_of (k_client st))) as [res rs] eqn:EF. cbn [fst] in HF. subst res.
  pose proof (parse_errors _ _ _ _ _ _ EF) as He.
  pose proof (refusal_answer W os x (k_world st) (p_req q) e HR HA HN HU He) as HO.
  assert (HD : Detached (on_error x (k_world st) (p_req q) e)).
  { rewrite HO. apply Dt_update, Dt_update, Dt_ret. intros f E. injection E as <-. reflexivity. }
  destruct (bad_head CS cparse fresh max cfg umax kmax vmax fbs defs Hdefs (world W) (on_request x) (on_error x) past st q e rs HB HD EF)
    as (n & resp & w' & r' & out & st1 & D1 & D2 & D3 & D4 & D5).
  pose proof (sent_known _ _ _ _ _ _ D5) as D5u. clear D5. rename D5u into D5.
  rewrite HO in D1. unfold detached_result in D1. cbn [aloof_run] in D1. injection D1 as <- <- <-.
  exists n, (he_code e), out, st1. split; [exact HP|]. split; [exact D2|]. split; [exact D3|]. split; [exact D4|]. intros Hc Hk.
  assert (Hq : known q) by (eapply feed_known; [exact Hk|exact EF|eapply code_505; eassumption]).
  set (r1 := set_error (EHttp e) (run_mutators (x_mutators x) (p_req q))) in *.
  assert (Ep : r_proto r1 = r_proto (p_req q)).
  { unfold r1. change (r_proto (run_mutators (x_mutators x) (p_req q)) = r_proto (p_req q)). destruct (aliased W os x (p_req q) HR HA) as [A1 A2].
    destruct (in_dec (list_eq_dec L_Base.byte_eq_dec) (r_path (p_req q)) (map fst (aliases os))) as [Hi|Hi]; [|rewrite (A2 Hi); reflexivity].
    apply in_map_iff in Hi. destruct Hi as ([f t] & E & Hi). cbn [fst] in E. rewrite (A1 f t Hi (eq_sym E)). reflexivity. }
  assert (Hk1 : r_proto r1 <> PUnknown) by (rewrite Ep; exact Hq).
  specialize (D5 Hk1). exists (r_proto r1). split; [exact Hk1|]. cbn [not_nil] in D5.
  inversion D5 as [Ha Eo|a Ha| |]; subst; try discriminate. cbn [f_body set_code new_response]. destruct (method_eqb _ _); reflexivity.
Qed.
Theorem refused_after : forall CS cparse encoded fresh inside,
  DecoderOk CS cparse encoded fresh inside -> forall max, (max < two64)%Z ->
  forall cfg umax kmax vmax fbs defs, distinct_names defs ->
  (0 <= c_max_headers cfg)%Z -> (0 <= kmax)%Z -> (0 <= vmax)%Z -> (7 <= umax)%Z ->
  forall W (os : list (list nat * rop W)) x, Running os x -> PlainAliases os -> OrdinaryApp fbs os -> NoErrorHandlers os -> uses os [] = [] ->
  forall reqs past (st : conn CS (world W)) tail P, Routable os reqs ->
  Between umax kmax vmax fbs defs fresh past st ->
  Forall (GoodRequest encoded (cfg_limits cfg umax kmax vmax) max) reqs -> Malformed cfg umax kmax vmax tail P ->
  stream (k_client st) = concat (map wire reqs) ++ tail ->
  exists n outs closed st1, Dialogue defs os reqs (k_world st) past outs (k_world st1) closed /\
    cl_out (k_client st1) = cl_out (k_client st) ++ outs /\
    match closed with
    | Some _ => forall fuel, (n <= fuel)%nat -> serve cparse max cfg (on_request x) (on_error x) fuel st = close_with cparse max (on_error x) EndWrite st1
    | None => exists c out st2, P c /\
        (forall fuel, (n <= fuel)%nat -> serve cparse max cfg (on_request x) (on_error x) fuel st = (EndParse, st2)) /\
        k_world st2 = k_world st1 /\ cl_out (k_client st2) = cl_out (k_client st1) ++ [out] /\
        (c <> 505%N -> r_proto (p_req (k_parser st1)) <> PUnknown ->
           exists v past', v <> PUnknown /\
           out = response_text (version_of v) (itoa_N c) (sent_reason (set_code c new_response)) (sent_fields defs past' (set_code c new_response)) [])
    end.
Proof.
  intros CS cparse encoded fresh inside HD max Hmax cfg umax kmax vmax fbs defs Hdefs H1 H2 H3 H4 W os x HR HA HO HN HU reqs past st tail P HRo HB HG HM HS.
  destruct (conversation CS cparse encoded fresh inside HD max Hmax cfg umax kmax vmax fbs defs Hdefs (world W) (on_request x) (on_error x) reqs past st tail
    (ordinary_router W os x HR HA fbs reqs HO HRo) HB HG HS) as (n & outs & closed & st1 & C1 & C2 & C3).
  assert (HDi : Dialogue defs os reqs (k_world st) past outs (k_world st1) closed) by (eapply dialogue; try eassumption; auto).
  destruct closed as [l|].
  - exists n, outs, (Some l), st1. split; [exact HDi|]. split; [exact C2|]. intros fuel Hf. replace fuel with (n + (fuel - n))%nat by lia. apply C3.
  - destruct C3 as ((past' & HB1) & C4 & C5).
    destruct (refused CS cparse fresh max cfg umax kmax vmax fbs defs Hdefs H1 H2 H3 H4 W os x HR HA HN HU past' st1 tail P HB1 C4 HM) as (m & c & out & st2 & R1 & R2 & R3 & R4 & R5).
    exists (n + m)%nat, outs, None, st1. split; [exact HDi|]. split; [exact C2|]. exists c, out, st2. split; [exact R1|]. split.
    + intros fuel Hf. replace fuel with (n + (fuel - n))%nat by lia. rewrite C5. apply R2. lia.
    + split; [exact R3|]. split; [exact R4|]. intros Hc Hk. destruct (R5 Hc Hk) as (v & V1 & V2). exists v, past'. auto.
Qed.
