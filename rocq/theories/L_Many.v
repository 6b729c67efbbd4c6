(* Lemmas behind P_Many.v. *)
From Coq Require Import Permutation.
From Verif Require Import M_Base M_Status M_Method M_KeyValue M_Request M_Parser M_Client M_Body M_Response M_Serializer M_Suit M_Radix M_Router M_Virtual M_Tools M_Many S_Router S_Many L_Base L_Router5 L_Router6 L_Serve.

Section Many.
Variable CS : Type.
Variable cparse : CS -> bytes -> bool -> CS * (bytes * bytes * option cerr).
Variable max_body : Z.
Variable cfg : hcfg.
Variable W : Type.
Variable on_request : W -> request -> hprog W.
Variable on_error : W -> request -> http_error -> hprog W.
Notation conn := (conn CS W).
Notation run := (run_handler cparse max_body).
Notation round := (round cparse max_body cfg on_request on_error).
Notation alone := (alone cparse max_body cfg on_request on_error).
Notation step := (step cparse max_body cfg on_request on_error).
Notation steps := (steps cparse max_body cfg on_request on_error).

Definition like_res (a b : hres CS W) : Prop :=
  match a, b with
  | HDone resp w r b0 c, HDone resp' w' r' b' c' => resp = resp' /\ r = r' /\ b0 = b' /\ c = c'
  | HPanic r b0 c, HPanic r' b' c' => r = r' /\ b0 = b' /\ c = c'
  | HStuck, HStuck => True
  | _, _ => False
  end.
Lemma run_alike : forall p p' : hprog W, Alike p p' -> forall r b c, like_res (run p r b c) (run p' r b c).
Proof.
  intros p p' H. induction H as [resp w w'|op k k' _ IH|g k k' _ IH|k k' _ IH|k k' _ IH|d k k' _ IH| |p q k p' q' k' _ IHp _ IHq _ IHk|k k' _ IH]; intros r b c; cbn [run_handler].
  - cbn. auto.
  - destruct (body_op cparse max_body op b c) as [[o b'] c']. destruct (stops o) as [[|]|]; [cbn; auto|exact I|apply IH].
  - apply IH.
  - destruct (body_discard cparse max_body b c) as [[[[e|]|] b'] c']; [apply IH|apply IH|exact I].
  - destruct (client_read c) as [x c']. apply IH.
  - destruct (client_write c d) as [ok c']. apply IH.
  - cbn. auto.
  - specialize (IHp r b c). destruct (run p r b c) as [resp w r1 b1 c1|r1 b1 c1|]; destruct (run p' r b c) as [resp' w' r1' b1' c1'|r1' b1' c1'|]; cbn in IHp; try contradiction; [| |exact I].
    + destruct IHp as (-> & -> & -> & ->). apply IHk.
    + destruct IHp as (-> & -> & ->). specialize (IHq r1' b1' c1'). destruct (run q r1' b1' c1') as [resp w r2 b2 c2|r2 b2 c2|]; destruct (run q' r1' b1' c1') as [resp' w' r2' b2' c2'|r2' b2' c2'|]; cbn in IHq; try contradiction.
      * destruct IHq as (-> & -> & -> & ->). apply IHk.
      * exact IHq.
      * exact I.
  - apply IH.
Qed.
Definition LikeRound (a b : (ending * conn) + conn) : Prop :=
  match a, b with inl (e, x), inl (e', y) => e = e' /\ Like x y | inr x, inr y => Like x y | _, _ => False end.
Lemma like_refl : forall a : conn, Like a a. Proof. intros a. repeat split. Qed.

Variable P : request -> Prop.
Hypothesis HO : Own P on_request on_error.

Lemma like_close : forall e (a b : conn), Like a b -> LikeRound (inl (close_with cparse max_body on_error e a)) (inl (close_with cparse max_body on_error e b)).
Proof.
  intros e [pa sa ca ba fa wa] [pb sb cb bb fb wb] (E1 & E2 & E3 & E4 & E5). cbn [k_parser k_ser k_client k_body k_pre] in *. subst.
  unfold close_with. cbn [k_parser k_ser k_client k_body k_pre k_world].
  assert (HA : Alike (on_error wa (p_req pb) ErrCloseConnection) (on_error wb (p_req pb) ErrCloseConnection)) by (apply HO; discriminate).
  pose proof (run_alike _ _ HA (p_req pb) bb cb) as R.
  destruct (run (on_error wa (p_req pb) ErrCloseConnection) (p_req pb) bb cb) as [resp w r1 b1 c1|r1 b1 c1|];
    destruct (run (on_error wb (p_req pb) ErrCloseConnection) (p_req pb) bb cb) as [resp' w' r1' b1' c1'|r1' b1' c1'|]; cbn in R; try contradiction.
  - destruct R as (-> & -> & -> & ->). cbn. split; [reflexivity|]. repeat split.
  - cbn. split; [reflexivity|]. repeat split.
  - cbn. split; [reflexivity|]. repeat split.
Qed.
Lemma like_bad : forall err (a b : conn), Like a b -> err <> ErrMethodNotAllowed ->
  LikeRound (inl (on_bad_head cparse max_body on_error a err)) (inl (on_bad_head cparse max_body on_error b err)).
Proof.
  intros e [pa sa ca ba fa wa] [pb sb cb bb fb wb] (E1 & E2 & E3 & E4 & E5) He. cbn [k_parser k_ser k_client k_body k_pre] in *. subst.
  unfold on_bad_head. cbn [k_parser k_ser k_client k_body k_pre k_world].
  assert (HA : Alike (on_error wa (p_req pb) e) (on_error wb (p_req pb) e)) by (apply HO; exact He).
  pose proof (run_alike _ _ HA (p_req pb) bb cb) as R.
  destruct (run (on_error wa (p_req pb) e) (p_req pb) bb cb) as [resp w r1 b1 c1|r1 b1 c1|];
    destruct (run (on_error wb (p_req pb) e) (p_req pb) bb cb) as [resp' w' r1' b1' c1'|r1' b1' c1'|]; cbn in R; try contradiction.
  - destruct R as (-> & -> & -> & ->). destruct (write_response (r_proto r1') r1' (not_nil resp') sb c1') as [[[[] s'] c'] z]; cbn; (split; [reflexivity|]); repeat split.
  - cbn. split; [reflexivity|]. repeat split.
  - cbn. split; [reflexivity|]. repeat split.
Qed.
Lemma like_head : forall extra (a b : conn), Like a b -> P (p_req (k_parser b)) ->
  LikeRound (on_head cparse max_body on_request on_error a extra) (on_head cparse max_body on_request on_error b extra).
Proof.
  intros extra [pa sa ca ba fa wa] [pb sb cb bb fb wb] (E1 & E2 & E3 & E4 & E5) HP. cbn [k_parser k_ser k_client k_body k_pre] in *. subst.
  unfold on_head. cbn [k_parser k_ser k_client k_body k_pre k_world].
  match goal with |- context [if wants_switch ?r then ?x else ?y] => destruct (if wants_switch r then x else y) as [[s pre] version] end.
  assert (HA : Alike (on_request wa (p_req pb)) (on_request wb (p_req pb))) by (apply HO; exact HP).
  pose proof (run_alike _ _ HA (p_req pb) (body_init bb (p_req pb)) (client_unread cb extra)) as R.
  destruct (run (on_request wa (p_req pb)) (p_req pb) (body_init bb (p_req pb)) (client_unread cb extra)) as [resp w r1 b1 c1|r1 b1 c1|];
    destruct (run (on_request wb (p_req pb)) (p_req pb) (body_init bb (p_req pb)) (client_unread cb extra)) as [resp' w' r1' b1' c1'|r1' b1' c1'|]; cbn in R; try contradiction.
  2,3: cbn; split; [reflexivity|]; repeat split.
  destruct R as (-> & -> & -> & ->). destruct (r_hijacked r1'); [cbn; split; [reflexivity|]; repeat split|].
  destruct (write_response version r1' (not_nil resp') s c1') as [[[res s'] c'] z]. destruct res; try (cbn; split; [reflexivity|]; repeat split; fail); try (apply like_close; repeat split).
  destruct (request_clear_full cparse max_body r1' b1' c') as [[[res2 r2] b2] c2]. destruct res2 as [[e|]|]; [apply like_close; repeat split|cbn; repeat split|cbn; split; [reflexivity|]; repeat split].
Qed.
Lemma like_round : forall a b : conn, Like a b -> (forall d c p extra, client_read (k_client b) = ((d, None), c) -> parse cfg (k_parser b) d = RDone p extra -> P (p_req p)) ->
  LikeRound (round a) (round b).
Proof.
  intros a b HL HP. assert (HL' := HL). destruct HL' as (E1 & E2 & E3 & E4 & E5). unfold M_Many.round. rewrite E3. destruct (client_read (k_client b)) as [[d [e|]] c1] eqn:Er.
  - apply like_close. repeat split; assumption.
  - cbn [set_k_client k_parser]. rewrite E1. destruct (parse cfg (k_parser b) d) as [p|p extra|p err| |] eqn:Ep.
    + cbn. repeat split; assumption.
    + apply like_head; [repeat split; assumption|]. cbn [set_k_parser k_parser]. exact (HP d c1 p extra eq_refl Ep).
    + apply like_bad; [repeat split; assumption|]. intros ->.
      assert (X : In ErrMethodNotAllowed [ErrTooLongRequestLine; ErrBadRequest; ErrMethodNotImplemented; ErrURITooLong; ErrURIDecoding; ErrUnsupportedProtocol; ErrHeaderFieldsTooLarge; ErrTooManyHeaders]).
      { apply (parse_errors cfg [d] (k_parser b) p _ []). cbn [M_Parser.feed]. rewrite Ep. reflexivity. }
      cbn [In] in X. repeat destruct X as [X|X]; try discriminate. exact X.
    + cbn. split; [reflexivity|]. repeat split; assumption.
    + cbn. split; [reflexivity|]. repeat split; assumption.
Qed.
Lemma with_like : forall w (st b : conn), Like st b -> Like (with_world w st) b.
Proof. intros w st b H. exact H. Qed.
Lemma put_nth : forall (l : list (slot CS W)) i x j, nth_error (put l i x) j = if Nat.eqb i j then option_map (fun _ => x) (nth_error l j) else nth_error l j.
Proof. induction l as [|y l IH]; intros [|i] x [|j]; cbn [put nth_error Nat.eqb option_map]; auto. destruct (Nat.eqb i j); reflexivity. Qed.
Lemma alone_next : forall n (st st' : conn), alone n st = Going st' -> alone (S n) st = match round st' with inl (e, x) => Over e x | inr x => Going x end.
Proof.
  induction n as [|n IH]; intros st st' H.
  - cbn [S_Many.alone] in H. injection H as <-. cbn [S_Many.alone]. reflexivity.
  - cbn [S_Many.alone] in H. change (alone (S (S n)) st) with (match round st with inl (e, x) => Over e x | inr x => alone (S n) x end).
    destruct (round st) as [[e x]|x]; [discriminate|]. exact (IH x st' H).
Qed.
Lemma alone_app : forall (st : conn) m l m' i x, nth_error (m_slots m) i = Some x -> steps l m = Some m' ->
  AsksOnly cparse max_body cfg on_request on_error P st -> forall n, LikeSlot x (alone n st) -> exists y, nth_error (m_slots m') i = Some y /\ LikeSlot y (alone (n + turns i l) st).
Proof.
  intros st m l. revert m. induction l as [|j l IH]; intros m m' i x Hx Hs HA n HL; cbn [M_Many.steps] in Hs.
  - injection Hs as <-. exists x. split; [exact Hx|]. unfold turns. cbn [count_occ]. rewrite Nat.add_0_r. exact HL.
  - destruct (step j m) as [m1|] eqn:E; [|discriminate]. unfold M_Many.step in E. destruct (m_dead m); [discriminate|].
    destruct (nth_error (m_slots m) j) as [[sj|]|] eqn:Ej; try discriminate.
    unfold turns. cbn [count_occ]. destruct (Nat.eq_dec j i) as [->|N].
    + rewrite Hx in Ej. injection Ej as ->. destruct (alone n st) as [b|e b] eqn:Ea; [|contradiction]. cbn [LikeSlot] in HL.
      assert (HR : LikeRound (round (with_world (m_world m) sj)) (round b)).
      { apply like_round; [exact (with_like _ _ _ HL)|]. intros d c p extra E1 E2. exact (HA n b d c p extra Ea E1 E2). }
      pose proof (alone_next n st b Ea) as Nx.
      replace (n + S (count_occ Nat.eq_dec l i))%nat with (S n + turns i l)%nat by (unfold turns; lia).
      destruct (round (with_world (m_world m) sj)) as [[e x1]|x1]; destruct (round b) as [[e' y1]|y1]; cbn in HR; try contradiction; injection E as <-.
      * refine (IH _ m' i (Over e x1) _ Hs HA (S n) _); [cbn [m_slots]; rewrite put_nth, Nat.eqb_refl, Hx; reflexivity|]. rewrite Nx. exact HR.
      * refine (IH _ m' i (Going x1) _ Hs HA (S n) _); [cbn [m_slots]; rewrite put_nth, Nat.eqb_refl, Hx; reflexivity|]. rewrite Nx. exact HR.
    + assert (Hx' : nth_error (m_slots m1) i = Some x).
      { destruct (round (with_world (m_world m) sj)) as [[e x1]|x1]; injection E as <-; cbn [m_slots]; rewrite put_nth; destruct (Nat.eqb_spec j i); try congruence. }
      exact (IH m1 m' i x Hx' Hs HA n HL).
Qed.
Theorem isolated : forall l m m' i st, nth_error (m_slots m) i = Some (Going st) -> steps l m = Some m' -> AsksOnly cparse max_body cfg on_request on_error P st ->
  exists y, nth_error (m_slots m') i = Some y /\ LikeSlot y (alone (turns i l) st).
Proof. intros l m m' i st H1 H2 H3. apply (alone_app st m l m' i (Going st) H1 H2 H3 0). apply like_refl. Qed.
End Many.

Lemma serve_round : forall CS cparse max cfg W (on_request : W -> request -> hprog W) on_error n (st : conn CS W),
  serve cparse max cfg on_request on_error (S n) st =
  match round cparse max cfg on_request on_error st with inl fin => fin | inr st' => serve cparse max cfg on_request on_error n st' end.
Proof.
  intros. cbn [serve]. unfold round. destruct (client_read (k_client st)) as [[d [e|]] c1]; [reflexivity|]. destruct (parse cfg (k_parser (set_k_client c1 st)) d); reflexivity.
Qed.
Lemma alone_serve : forall CS cparse max cfg W (on_request : W -> request -> hprog W) on_error n (st : conn CS W) e st',
  alone cparse max cfg on_request on_error n st = Over e st' -> forall k, serve cparse max cfg on_request on_error (n + k) st = (e, st').
Proof.
  intros CS cparse max cfg W orq oe n. induction n as [|n IH]; intros st e st' H k; [discriminate|]. cbn [Nat.add]. rewrite serve_round. cbn [alone] in H.
  destruct (round cparse max cfg orq oe st) as [[e1 x]|x]; [injection H as -> ->; reflexivity|]. apply IH. exact H.
Qed.

(* ---- the built-in router ---- *)
Section OwnApp.
Variable W : Type.
Variable os : list (list nat * rop W).
Hypothesis HA : OwnApp os.
Lemma behind_own : forall (ms : list (middleware W)) h, Forall Passes ms -> Indifferent h -> Indifferent (behind ms h).
Proof. intros ms h H Hh. induction H as [|m ms Hm _ IH]; [exact Hh|]. cbn [behind fold_right]. apply Hm. exact IH. Qed.
Lemma uses_pass : forall addr, Forall Passes (uses os addr).
Proof.
  intros addr. apply Forall_forall. intros mw H. unfold uses, calls in H. apply in_flat_map in H. destruct H as (o & Ho & Hm).
  apply in_map_iff in Ho. destruct Ho as ([a o'] & E & Ho). cbn [snd] in E. subst o'. apply filter_In in Ho. destruct Ho as [Ho _].
  pose proof (HA a o Ho) as X. destruct o; try contradiction. exact (proj1 (Forall_forall _ _) X mw Hm).
Qed.
Lemma chain_pass : forall addr, Forall Passes (chain os addr).
Proof.
  intros addr. unfold chain. generalize (@nil nat) as pre. induction addr as [|i addr IH]; intros pre; cbn [chain_below]; apply Forall_app; split; try apply uses_pass; [apply Forall_nil|apply IH].
Qed.
Lemma registered_own : forall p m h, In (p, m, h) (registered os) -> Indifferent h.
Proof.
  intros p m h H. unfold registered in H. apply in_flat_map in H. destruct H as ([a o] & Ho & Hi). cbn [snd fst] in Hi. pose proof (HA a o Ho) as X. destruct o; try contradiction.
  cbn in Hi. destruct Hi as [[= _ _ <-]|[]]. apply behind_own; [apply Forall_app; split; [apply chain_pass|apply X]|apply X].
Qed.
Lemma caught_own : forall p h, In (p, h) (caught os) -> Indifferent h.
Proof.
  intros p h H. unfold caught in H. apply in_flat_map in H. destruct H as ([a o] & Ho & Hi). cbn [snd fst] in Hi. pose proof (HA a o Ho) as X. destruct o; try contradiction.
  cbn in Hi. destruct Hi as [[= _ <-]|[]]. apply behind_own; [apply Forall_app; split; [apply chain_pass|apply X]|apply X].
Qed.
Lemma default_own : Indifferent (@default_all_errors W). Proof. intros w w' r. apply Al_ret. Qed.
Lemma not_allowed_own : Indifferent (@default_method_not_allowed W).
Proof. intros w w' r. unfold default_method_not_allowed. destruct (resp_header _ _ _); [apply Al_ret|apply Al_crash]. Qed.
Lemma handler_for_own : forall c h, handler_for os c = Some h -> Indifferent h.
Proof.
  intros c. unfold handler_for.
  assert (G : forall acc, (forall h, acc = Some h -> Indifferent h) -> forall l : list (list nat * rop W), incl l os -> forall h, fold_left (fun acc x => match snd x with
      | OnErrors h cs => if existsb (N.eqb c) (match cs with [] => [AllErrors] | _ => cs end) then Some h else acc | _ => acc end) l acc = Some h -> Indifferent h).
  { intros acc Hacc l. revert acc Hacc. induction l as [|[a o] l IH]; intros acc Hacc Hl h H; cbn [fold_left] in H; [exact (Hacc h H)|].
    refine (IH _ _ (fun z Hz => Hl z (or_intror Hz)) h H). pose proof (HA a o (Hl _ (or_introl eq_refl))) as X. cbn [snd]. destruct o; try exact Hacc.
    destruct (existsb _ _); [intros h' [= <-]; exact X|exact Hacc]. }
  apply G; [|apply incl_refl]. intros h. destruct (c =? AllErrors)%N; [intros [= <-]; apply default_own|]. destruct (c =? 405)%N; [intros [= <-]; apply not_allowed_own|discriminate].
Qed.
Lemma errors_own : forall c, Indifferent (error_choice os c).
Proof.
  intros c. unfold error_choice. apply behind_own; [apply uses_pass|]. destruct (handler_for os c) as [h|] eqn:E; [exact (handler_for_own c h E)|].
  destruct (handler_for os AllErrors) as [h|] eqn:E2; [exact (handler_for_own _ h E2)|apply default_own].
Qed.
End OwnApp.
Lemma arrive_method : forall W (os : list (list nat * rop W)) x r, Running os x -> PlainAliases os -> r_method (run_mutators (x_mutators x) r) = r_method r.
Proof.
  intros W os x r HR HP. destruct (aliased W os x r HR HP) as [A1 A2].
  destruct (in_dec (list_eq_dec byte_eq_dec) (r_path r) (map fst (aliases os))) as [Hi|Hi]; [|rewrite (A2 Hi); reflexivity].
  apply in_map_iff in Hi. destruct Hi as ([f t] & E & Hi). cbn [fst] in E. rewrite (A1 f t Hi (eq_sym E)). reflexivity.
Qed.
Lemma err_alike : forall W (os : list (list nat * rop W)) x, Running os x -> OwnApp os -> forall w w' r e, ~ (r_method r = TRACE /\ e = ErrMethodNotAllowed) ->
  Alike (on_err x w r (EHttp e)) (on_err x w' r (EHttp e)).
Proof.
  intros W os x HR HA w w' r e HT. pose proof (caught_own W os HA) as HC. pose proof (errors_own W os HA) as HE.
  assert (D : (exists h p, In (p, h) (caught os) /\ forall w0, on_err x w0 r (EHttp e) = h w0 r) \/ (e = ErrNotFound -> forall p h, In (p, h) (caught os) -> ~ Prefix p (r_path r))).
  { destruct (is_err (EHttp e) ErrNotFound) eqn:E; [|right; intros ->; discriminate]. cbn [is_err] in E. apply http_error_eqb_eq in E. subst e.
    destruct (running_catchers W os x HR) as [C1 C2]. destruct (find_catcher (x_catchers x) (r_path r)) as [h|] eqn:EF.
    - left. destruct (find_catcher_some W _ _ _ C2 EF) as (p & Hp & _). exists h, p. split; [eapply Permutation_in; [exact C1|exact Hp]|].
      intros w0. unfold on_err. replace (method_eqb (r_method r) TRACE && is_err (EHttp ErrNotFound) ErrMethodNotAllowed) with false by (rewrite andb_comm; reflexivity).
      change (is_err (EHttp ErrNotFound) ErrNotFound) with true. cbn iota. rewrite EF. reflexivity.
    - right. intros _ p h Hi. apply (proj1 (find_catcher_none W _ _) EF p h). eapply Permutation_in; [apply Permutation_sym; exact C1|exact Hi]. }
  destruct D as [(h & p & Hi & E)|D].
  - rewrite !E. exact (HC p h Hi w w' r).
  - rewrite (errors_handled W os x w r e HR HT D), (errors_handled W os x w' r e HR HT D). apply Al_update. apply HE.
Qed.
Lemma router_own : forall W (os : list (list nat * rop W)) x, Running os x -> PlainAliases os -> OwnApp os -> Own NotTrace (on_request x) (on_error x).
Proof.
  intros W os x HR HP HA. split.
  - intros w w' r HT. unfold on_request. apply Al_update. destruct (route x r) as [r' t] eqn:E. destruct t as [h|e|].
    + destruct (reached W os x r h HR) as (p & m & Hi & _); [rewrite E; reflexivity|]. exact (registered_own W os HA p m h Hi w w' r').
    + apply (err_alike W os x HR HA). intros [Hm _]. apply HT. rewrite <- Hm. symmetry.
      assert (M : r_method (fst (route x r)) = r_method (arrive x r)).
      { unfold route. destruct (x_table x) as [tb|n]; [destruct (ep_get tb (r_path (arrive x r))) as [ep|]; [|reflexivity]|destruct (match_path n (r_path (arrive x r)) (r_params (arrive x r))) as [ep ps|ps| |]; try reflexivity];
          unfold to_endpoint; match goal with |- context [get_handler ?a ?b] => destruct (get_handler a b) end; reflexivity. }
      rewrite E in M. cbn [fst] in M. rewrite M. unfold arrive. cbn [set_path r_method]. exact (arrive_method W os x r HR HP).
    + apply Al_crash.
  - intros w w' r e He. unfold on_error. apply Al_update. apply (err_alike W os x HR HA). intros [_ X]. exact (He X).
Qed.
(* ---- the other routers ---- *)
Lemma simple_own : forall W (h eh : W -> request -> hprog W), (forall w w' r, Alike (h w r) (h w' r)) -> (forall w w' r, Alike (eh w r) (eh w' r)) ->
  Own (fun _ => True) (simple_request h) (simple_error eh).
Proof. intros W h eh H1 H2. split; intros; [apply H1|apply Al_update; apply H2]. Qed.
Lemma find_in : forall W (l : list (bytes * M_Virtual.router W)) host x, v_find l host = Some x -> In x (map snd l).
Proof. intros W l host x. induction l as [|[d y] l IH]; cbn; [discriminate|]. destruct (equal_fold d host); [intros [= ->]; auto|auto]. Qed.
Lemma virtual_own : forall W (v : vrouter W) (P : request -> Prop), (forall r, P r -> P (looked_up r)) ->
  (forall x, In x (map snd (v_hosts v)) \/ v_default v = Some x -> Own P (ro_request x) (ro_error x)) -> Own P (v_request v) (v_error v).
Proof.
  intros W v P HP H.
  assert (G : forall r x c, get_router v r = (Some x, c) -> In x (map snd (v_hosts v)) \/ v_default v = Some x).
  { intros r x c. unfold get_router. destruct (snd (kv_values_of (r_headers r) (B "host"))) as [[|host [|]]|]; try discriminate.
    - destruct (v_find (v_hosts v) host) as [y|] eqn:E; intros [= Hx _]; [left; subst y; exact (find_in _ _ _ _ E)|right; exact Hx].
    - intros [= Hx _]. right. exact Hx. }
  split.
  - intros w w' r HPr. unfold v_request. apply Al_update. destruct (get_router v r) as [[x|] c] eqn:E; [|apply Al_ret]. apply (H x (G r x c E)). exact (HP r HPr).
  - intros w w' r e He. unfold v_error. apply Al_update. destruct (get_router v r) as [[x|] c] eqn:E; [|apply Al_ret]. apply (H x (G r x c E)). exact He.
Qed.
Lemma looked_method : forall r, r_method (looked_up r) = r_method r. Proof. reflexivity. Qed.
