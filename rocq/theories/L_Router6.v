(* Routing by proper templates; which handlers are ever reached. *)
From Coq Require Import Permutation Sorted.
From Verif Require Import M_Base M_Status M_Method M_KeyValue M_Request M_Response M_Suit M_Path M_Radix M_Router S_Routes S_Router
  L_Base L_Path L_Radix L_Router L_Router2 L_Router3 L_Router4 L_Router5.

Lemma payload_from : forall P ts (n n' : node P), tree_ok P n -> insert_all P ts n = Some n' ->
  forall u p, payload_at P n' u = Some p -> In (u, p) ts \/ payload_at P n u = Some p.
Proof.
  intros P. induction ts as [|[t q] ts IH]; intros n n' Hok H u p Hp; cbn [insert_all] in H; [injection H as <-; auto|].
  destruct (insert t q n) as [n1|] eqn:E; [|discriminate]. destruct (insert_spec P t q n n1 Hok E) as (S1 & S2 & _).
  destruct (IH n1 n' S1 H u p Hp) as [Hi|Hi]; [left; right; exact Hi|]. rewrite S2 in Hi.
  destruct (tmpl_eq_dec u t) as [->|_]; [|right; exact Hi]. injection Hi as ->. left. left. reflexivity.
Qed.
Lemma insert_all_ok : forall P ts (n n' : node P), tree_ok P n -> insert_all P ts n = Some n' -> tree_ok P n'.
Proof.
  intros P. induction ts as [|[t q] ts IH]; intros n n' Hok H; cbn [insert_all] in H; [injection H as <-; auto|].
  destruct (insert t q n) as [n1|] eqn:E; [|discriminate]. apply (IH n1 n'); [eapply insert_spec; eassumption|exact H].
Qed.
Lemma found_payload : forall P ts root (n : node P) path params p params', insert_all P ts (new_node root) = Some n ->
  match_path n path params = MFound p params' ->
  exists parts t ps, PathOf parts path /\ Binds t parts ps /\ params' = add_params params ps /\ (In (t, p) ts \/ (t = [] /\ root = Some p)).
Proof.
  intros P ts root n path params p params' Hn H. destruct path as [|c path]; [discriminate|].
  destruct (Byte.eqb c SLASH) eqn:E; [|unfold match_path in H; rewrite E in H; discriminate]. apply beq_eq in E. subst c.
  assert (H0 : tree_ok P (new_node root)). { intros t m Hm. apply new_at in Hm. destruct Hm as [_ ->]. apply new_ok. }
  destruct (path_parts path) as (parts & Hp). rewrite (match_walk P parts _ n params Hp) in H.
  pose proof (walk_inv P parts n params (insert_all_ok P ts _ n H0 Hn)) as HW. rewrite H in HW. destruct HW as (t & ps & W1 & W2 & W3 & _).
  exists parts, t, ps. split; [exact Hp|]. split; [exact W1|]. split; [exact W3|].
  destruct (payload_from P ts _ n H0 Hn t p W2) as [Hi|Hi]; [left; exact Hi|right].
  unfold payload_at in Hi. destruct (at_ P t (new_node root)) as [m|] eqn:Em; [|discriminate]. apply new_at in Em. destruct Em as [-> ->]. auto.
Qed.

Section Router.
Variable W : Type.
Notation handler := (handler W). Notation middleware := (middleware W). Notation rop := (rop W).
Notation catcher := (catcher W). Notation mtable := (mtable W). Notation router := (router W).
Notation ops := (list (list nat * rop)).
Notation flat := (flat W). Notation sub := (sub W).

(* ---- every handler reached is that of a registered route with this method ---- *)
Theorem reached : forall (os : ops) x r h, Running os x -> snd (route x r) = ToHandler h ->
  exists p m, In (p, m, h) (registered os) /\ Serves (r_method (arrive x r)) m.
Proof.
  intros os x r h HR H. destruct (running_inv W os x HR) as (routes & R1 & R2 & R3 & R4 & _ & _ & [[_ Ht]|[_ (n & Ht & Hn)]]).
  - unfold route in H. rewrite Ht, (as_map_flat W) in H. set (r' := arrive x r) in *.
    assert (Hnd : NoDup (map fst (flat routes))) by (destruct R1 as (_ & _ & N); exact N).
    pose proof (rmap_fold W (flat routes) (r_path r') Hnd) as HF.
    destruct (ep_get _ (r_path r')) as [e|]; [|discriminate]. destruct HF as (_ & F2 & _).
    assert (HI : forall m, ep_methods e m = Some h -> In (r_path r', m, h) (registered os)).
    { intros m Hm. eapply Permutation_in; [exact R2|]. apply F2. exact Hm. }
    exists (r_path r'). revert H. unfold to_endpoint, get_handler. cbn [set_allowed set_env r_method].
    destruct (ep_methods e (r_method r')) as [h0|] eqn:Em.
    + assert (E : (match r_method r' with HEAD => Some h0 | _ => Some h0 end) = Some h0) by (destruct (r_method r'); reflexivity).
      intros H. cbn [snd] in H. injection H as ->. exists (r_method r'). split; [apply HI; exact Em|left; reflexivity].
    + destruct (r_method r') eqn:Er; try discriminate. destruct (ep_methods e GET) as [h0|] eqn:Eg; [|discriminate].
      intros H. cbn [snd] in H. injection H as ->. exists GET. split; [apply HI; exact Eg|right; auto].
  - assert (HT : Forall (fun e : bytes * mtable => exists t, tparse (fst e) = inr t) routes).
    { apply Forall_forall. intros [p t] Hi. destruct R1 as (_ & W2 & _). rewrite Forall_forall in W2. pose proof (W2 _ Hi) as Hne. cbn in Hne.
      destruct t as [|[m h'] t]; [contradiction|]. apply (R4 (p, m, h')). eapply Permutation_in; [exact R2|]. apply (in_flat W). exists ((m, h') :: t). split; [exact Hi|left; reflexivity]. }
    rewrite (as_tree_insert W _ _ HT) in Hn. unfold route in H. rewrite Ht in H. set (r' := arrive x r) in *.
    destruct (match_path n (r_path r') (r_params r')) as [e params|params| |] eqn:EM; try discriminate.
    destruct (found_payload _ _ _ n _ _ _ _ Hn EM) as (parts & t & ps & _ & _ & _ & [Hi|[_ He]]).
    + unfold tree_items in Hi. apply in_map_iff in Hi. destruct Hi as ([p mt] & E1 & E2). cbn [fst snd] in E1. injection E1 as _ <-.
      assert (HI : forall m, ep_methods (tree_endpoint mt) m = Some h -> In (p, m, h) (registered os)).
      { intros m Hm. rewrite (tree_endpoint_methods W) in Hm by (eapply wf_methods; eassumption). eapply Permutation_in; [exact R2|].
        apply (in_table W routes p mt R1 E2). exact Hm. }
      exists p. revert H. unfold to_endpoint, get_handler. cbn [set_allowed set_env set_params r_method].
      destruct (ep_methods (tree_endpoint mt) (r_method r')) as [h0|] eqn:Em.
      * intros H. cbn [snd] in H. injection H as ->. exists (r_method r'). split; [apply HI; exact Em|left; reflexivity].
      * destruct (r_method r') eqn:Er; try discriminate. destruct (ep_methods (tree_endpoint mt) GET) as [h0|] eqn:Eg; [|discriminate].
        intros H. cbn [snd] in H. injection H as ->. exists GET. split; [apply HI; exact Eg|right; auto].
    + injection He as <-. exfalso. revert H. unfold to_endpoint, get_handler, no_methods. cbn [ep_methods]. destruct (r_method _); discriminate.
Qed.
Theorem in_registered : forall (os : ops) p m H, In (p, m, H) (registered os) <->
  exists addr p0 h ms, In (addr, Route m p0 h ms) os /\ p = normalize (full_prefix os addr ++ p0) /\ H = behind (chain os addr ++ ms) h.
Proof.
  intros os p m H. unfold registered. rewrite in_flat_map. split.
  - intros ([addr o] & H1 & H2). cbn [snd fst] in H2. destruct o as [m0 p0 h ms| | | | | |]; try contradiction. destruct H2 as [H2|[]]. injection H2 as <- <- <-.
    exists addr, p0, h, ms. auto.
  - intros (addr & p0 & h & ms & H1 & -> & ->). exists (addr, Route m p0 h ms). split; [exact H1|]. left. reflexivity.
Qed.

(* ---- proper templates ---- *)
Lemma proper_parsed : forall t, Proper t -> tparse (template_text t) = inr t.
Proof.
  intros t (H1 & H2 & H3). rewrite template_accepted; [|exact H1|].
  - f_equal. destruct t as [|s t] using rev_ind; [reflexivity|]. rewrite drop_single_snoc. destruct s as [[|c [|d l]]|w]; try reflexivity. exfalso. apply (H3 t c). reflexivity.
  - intros s t' ->. destruct s as [x|w]; [exists x; reflexivity|contradiction].
Qed.
Lemma proper_inj : forall t t', Proper t -> Proper t' -> template_text t = template_text t' -> t = t'.
Proof. intros t t' H H' E. apply proper_parsed in H, H'. congruence. Qed.
Lemma proper_distinct : forall os : ops, ProperRoutes os -> DistinctTemplates os.
Proof.
  intros os H p p' m m' h h' H1 H2 E. destruct (H _ _ _ H1) as (t & T1 & ->), (H _ _ _ H2) as (t' & T2 & ->).
  rewrite (proper_parsed t T1), (proper_parsed t' T2) in E. congruence.
Qed.
Lemma proper_overruled : forall (os : ops) t parts, ProperRoutes os -> (Overruled os t parts <-> StaticFirst os t parts).
Proof.
  intros os t parts HP. split.
  - intros (pre & name & rest & v & rest' & p & m & h & O1 & O2 & O3 & O4). destruct (HP _ _ _ O3) as (u & U1 & ->).
    rewrite (proper_parsed u U1) in O4. injection O4 as ->. exists pre, name, rest, v, rest', m, h. auto.
  - intros (pre & name & rest & v & rest' & m & h & O1 & O2 & O3 & O4). exists pre, name, rest, v, rest', (template_text (pre ++ SStatic v :: rest')), m, h.
    repeat (split; [assumption|]). apply proper_parsed. exact O4.
Qed.
Theorem templates_routed : forall (os : ops) x r parts, Running os x -> HasParams os -> ProperRoutes os -> PathOf parts (r_path (arrive x r)) ->
  (forall t m h ps, Proper t -> In (template_text t, m, h) (registered os) -> Binds t parts ps -> ~ StaticFirst os t parts ->
     Answered (fun m h => In (template_text t, m, h) (registered os)) (set_params (add_params (r_params (arrive x r)) ps) (arrive x r)) (route x r)) /\
  ((forall t m h ps, Proper t -> In (template_text t, m, h) (registered os) -> Binds t parts ps -> StaticFirst os t parts) ->
     (exists ps, route x r = (set_params ps (arrive x r), ToError ErrNotFound)) \/
     (parts = [] /\ route x r = (set_allowed [] (arrive x r), ToError ErrMethodNotAllowed))).
Proof.
  intros os x r parts HR HD HP Hp. destruct (dynamic_routing W os x r parts HR HD (proper_distinct os HP) Hp) as [D1 D2]. split.
  - intros t m h ps T1 T2 T3 T4. apply (D1 (template_text t) m h t ps T2 (proper_parsed t T1) T3). intros H. apply T4. apply (proper_overruled os t parts HP). exact H.
  - intros H. apply D2. intros p m h t ps P1 P2 P3. destruct (HP _ _ _ P1) as (u & U1 & ->). rewrite (proper_parsed u U1) in P2. injection P2 as ->.
    apply (proper_overruled os t parts HP). apply (H t m h ps U1 P1 P3).
Qed.
(* ---- what runs ---- *)
Theorem request_runs : forall (x : runtime W) w r h, snd (route x r) = ToHandler h ->
  on_request x w r = HUpdate (fun r0 => fst (route x r0)) (h w (fst (route x r))).
Proof. intros x w r h H. unfold on_request. destruct (route x r) as [r' t]. cbn [fst snd] in *. subst t. reflexivity. Qed.
Theorem request_refused : forall (x : runtime W) w r e, snd (route x r) = ToError e ->
  on_request x w r = HUpdate (fun r0 => fst (route x r0)) (on_err x w (fst (route x r)) (EHttp e)).
Proof. intros x w r e H. unfold on_request. destruct (route x r) as [r' t]. cbn [fst snd] in *. subst t. reflexivity. Qed.

(* ---- initializing again ---- *)
Lemma prepare_again_empty : forall p mu ca mw re, @prepare W (Router p mu ca mw re []) =
  Some (Router p mu (map (fun c => (fst c, compose (snd c) mw)) ca) mw (reg_apply (fun h => compose h mw) re) []).
Proof. reflexivity. Qed.
End Router.

(* ---- marks ---- *)
Theorem marks_in_order : forall W (log : W -> nat -> W) ns (h : handler W) w r,
  behind (map (mark log) ns) h w r = h (fold_left log ns (fst w), snd w) r.
Proof.
  intros W log ns h. induction ns as [|n ns IH]; intros w r; [destruct w; reflexivity|].
  cbn [map behind fold_right]. fold (behind (map (mark log) ns) h). unfold mark at 1. rewrite IH. reflexivity.
Qed.
