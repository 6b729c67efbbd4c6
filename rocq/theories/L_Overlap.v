(* Lemmas behind P_Overlap.v. *)
From Coq Require Import Permutation.
From Verif Require Import M_Base M_Status M_Method M_Proto M_KeyValue M_Request M_Parser M_Client M_Body M_Response M_Serializer M_Suit M_Radix M_Router M_Many M_Overlap
  S_KeyValue S_Chunk S_Head S_Parser S_Body S_Response S_Conn S_Routes S_Router S_Serve S_Fail S_Many S_Overlap L_Base L_Body2 L_Conn2 L_Fail L_Router L_Router5 L_Router6 L_Serve L_Many.

Section Overlap.
Variable CS : Type.
Variable cparse : CS -> bytes -> bool -> CS * (bytes * bytes * option cerr).
Variable max_body : Z.
Variable cfg : hcfg.
Variable W : Type.
Variable on_request : W -> request -> hprog W.
Variable on_error : W -> request -> http_error -> hprog W.
Notation round := (round cparse max_body cfg on_request on_error).
Notation alone := (alone cparse max_body cfg on_request on_error).
Notation serve := (serve cparse max_body cfg on_request on_error).
Notation steps := (steps cparse max_body cfg on_request on_error).
Notation steps_seeing := (steps_seeing cparse max_body cfg on_request on_error).

Lemma alone_seeing P (HO : Own P on_request on_error) : forall l (st : conn CS W) m m' i x, nth_error (m_slots m) i = Some x -> steps_seeing l m = Some m' ->
  AsksOnly cparse max_body cfg on_request on_error P st -> forall n, LikeSlot x (alone n st) ->
  exists y, nth_error (m_slots m') i = Some y /\ LikeSlot y (alone (n + turns i (map fst l)) st).
Proof.
  induction l as [|[j w] l IH]; intros st m m' i x Hx Hs HA n HL; cbn [M_Overlap.steps_seeing] in Hs.
  - injection Hs as <-. exists x. split; [exact Hx|]. unfold turns. cbn [map count_occ]. rewrite Nat.add_0_r. exact HL.
  - destruct (step cparse max_body cfg on_request on_error j (Many w (m_dead m) (m_slots m))) as [m1|] eqn:E; [|discriminate].
    assert (E1 : steps [j] (Many w (m_dead m) (m_slots m)) = Some m1) by (cbn [M_Many.steps]; rewrite E; reflexivity).
    destruct (alone_app CS cparse max_body cfg W on_request on_error P HO st (Many w (m_dead m) (m_slots m)) [j] m1 i x Hx E1 HA n HL) as (y & Hy & HLy).
    destruct (IH st m1 m' i y Hy Hs HA _ HLy) as (z & Hz & HLz). exists z. split; [exact Hz|].
    replace (n + turns i (map fst ((j, w) :: l)))%nat with (n + turns i [j] + turns i (map fst l))%nat; [exact HLz|].
    unfold turns. cbn [map fst count_occ]. destruct (Nat.eq_dec j i); lia.
Qed.
(* one after the other is one of the ways *)
Lemma steps_as_seeing : forall l m, exists ws, List.length ws = List.length l /\ forall m', steps l m = Some m' -> steps_seeing (combine l ws) m = Some m'.
Proof.
  induction l as [|i l IH]; intros m; [exists []; split; [reflexivity|]; intros m' H; exact H|].
  destruct (step cparse max_body cfg on_request on_error i m) as [m1|] eqn:E.
  - destruct (IH m1) as (ws & L & H). exists (m_world m :: ws). split; [cbn; lia|]. intros m' Hs. cbn [M_Many.steps] in Hs. rewrite E in Hs. cbn [combine M_Overlap.steps_seeing].
    destruct m as [w dd sl]. cbn [m_world m_dead m_slots]. rewrite E. apply H. exact Hs.
  - exists (repeat (m_world m) (S (List.length l))). split; [rewrite repeat_length; reflexivity|]. intros m' Hs. cbn [M_Many.steps] in Hs. rewrite E in Hs. discriminate.
Qed.
(* an unfinished connection has served n rounds *)
Lemma alone_going : forall n st st', alone n st = Going st' -> forall k, serve (n + k) st = serve k st'.
Proof.
  induction n as [|n IH]; intros st st' H k; [injection H as <-; reflexivity|]. cbn [S_Many.alone] in H. cbn [Nat.add]. rewrite serve_round.
  destruct (round st) as [[e x]|x]; [discriminate|]. apply IH. exact H.
Qed.
End Overlap.

(* ---- what a connection asks for ---- *)
Section Asks.
Variable CS : Type.
Variable cparse : CS -> bytes -> bool -> CS * (bytes * bytes * option cerr).
Variable max_body : Z.
Variable cfg : hcfg.
Variable W : Type.
Variable on_request : W -> request -> hprog W.
Variable on_error : W -> request -> http_error -> hprog W.
(* a server that crashes when asked for TRACE, and otherwise is the same *)
Definition watchful (w : W) (r : request) : hprog W := if method_eqb (r_method r) TRACE then HCrash else on_request w r.
Definition silent (w : W) (r : request) (e : http_error) : hprog W := HRet None w.
Lemma watchful_round : forall st st', round cparse max_body cfg on_request on_error st = inr st' ->
  round cparse max_body cfg watchful silent st = inr st' \/
  exists d c p extra, client_read (k_client st) = ((d, None), c) /\ parse cfg (k_parser st) d = RDone p extra /\ r_method (p_req p) = TRACE.
Proof.
  intros st st' H. unfold round in *. destruct (client_read (k_client st)) as [[d [e|]] c1] eqn:Er; [discriminate|]. cbn [set_k_client k_parser] in *.
  destruct (parse cfg (k_parser st) d) as [p|p extra|p er| |] eqn:Ep; try discriminate; [left; exact H|].
  destruct (method_eqb (r_method (p_req p)) TRACE) eqn:Em; [right; exists d, c1, p, extra; split; [reflexivity|]; split; [exact Ep|]; apply method_eqb_eq; exact Em|left].
  unfold on_head in *. cbn [set_k_parser k_parser k_ser k_client k_body k_pre k_world p_req] in *. unfold watchful at 1. rewrite Em.
  set (hd := if wants_switch (p_req p) then _ else _) in *. destruct hd as [[s0 pre0] version].
  destruct (run_handler cparse max_body (on_request (k_world (set_k_client c1 st)) (p_req p)) (p_req p) (body_init (k_body (set_k_client c1 st)) (p_req p)) (client_unread (k_client (set_k_client c1 st)) extra)) as [resp w r1 b1 c2|r1 b1 c2|]; try discriminate.
  destruct (r_hijacked r1); [discriminate|]. destruct (write_response version r1 (not_nil resp) s0 c2) as [[[res s'] c'] z]. destruct res; try discriminate.
  destruct (request_clear_full cparse max_body r1 b1 c') as [[[res2 r2] b2] c3]. destruct res2 as [[e|]|]; try discriminate. exact H.
Qed.
Lemma watchful_crash : forall st d c p extra, client_read (k_client st) = ((d, None), c) -> parse cfg (k_parser st) d = RDone p extra -> r_method (p_req p) = TRACE ->
  exists x, round cparse max_body cfg watchful silent st = inl (EndPanic, x).
Proof.
  intros st d c p extra Er Ep Em. unfold round. rewrite Er. cbn [set_k_client k_parser]. rewrite Ep.
  unfold on_head. cbn [set_k_parser set_k_client k_parser k_ser k_client k_body k_pre k_world p_req]. unfold watchful. rewrite Em. change (method_eqb TRACE TRACE) with true. cbv iota.
  set (hd := if wants_switch (p_req p) then _ else _) in *. destruct hd as [[s0 pre0] version]. cbn [run_handler]. eexists. reflexivity.
Qed.
Lemma watchful_panics : forall n st st' d c p extra, alone cparse max_body cfg on_request on_error n st = Going st' ->
  client_read (k_client st') = ((d, None), c) -> parse cfg (k_parser st') d = RDone p extra -> r_method (p_req p) = TRACE ->
  exists m, forall k, fst (serve cparse max_body cfg watchful silent (m + k) st) = EndPanic.
Proof.
  induction n as [|n IH]; intros st st' d c p extra H Er Ep Em.
  - injection H as <-. destruct (watchful_crash st d c p extra Er Ep Em) as (x & Hx). exists 1%nat. intros k. cbn [Nat.add]. rewrite serve_round, Hx. reflexivity.
  - cbn [alone] in H. destruct (round cparse max_body cfg on_request on_error st) as [[e x]|x] eqn:R; [discriminate|].
    destruct (watchful_round st x R) as [R'|(d0 & c0 & p0 & ex0 & A & B0 & C)].
    + destruct (IH x st' d c p extra H Er Ep Em) as (m & Hm). exists (S m). intros k. cbn [Nat.add]. rewrite serve_round, R'. apply Hm.
    + destruct (watchful_crash st d0 c0 p0 ex0 A B0 C) as (y & Hy). exists 1%nat. intros k. cbn [Nat.add]. rewrite serve_round, Hy. reflexivity.
Qed.
End Asks.

(* well-formed requests none of which is TRACE ask for nothing else *)
Lemma good_asks : forall CS cparse encoded fresh inside,
  DecoderOk CS cparse encoded fresh inside -> forall max, (max < two64)%Z ->
  forall cfg umax kmax vmax fbs defs, distinct_names defs ->
  forall W (on_request : W -> request -> hprog W) (on_error : W -> request -> http_error -> hprog W),
  forall reqs past (st : conn CS W) tail,
  (forall q w r, In q reqs -> Shows (q_head q) r -> Ordinary fbs (on_request w r)) ->
  Between umax kmax vmax fbs defs fresh past st ->
  Forall (GoodRequest encoded (cfg_limits cfg umax kmax vmax) max) reqs ->
  Unfinished (cfg_limits cfg umax kmax vmax) tail ->
  stream (k_client st) = concat (map wire reqs) ++ tail ->
  (forall q, In q reqs -> h_method (q_head q) <> TRACE) ->
  AsksOnly cparse max cfg on_request on_error NotTrace st.
Proof.
  intros CS cparse encoded fresh inside HD max HM cfg umax kmax vmax fbs defs DN W on_request on_error reqs past st tail HO HB HG HU HS HT n st' d c p extra H Er Ep Em.
  destruct (watchful_panics CS cparse max cfg W on_request on_error n st st' d c p extra H Er Ep Em) as (m & Hm).
  destruct (whole_connection CS cparse encoded fresh inside HD max HM cfg umax kmax vmax fbs defs DN W (watchful W on_request) (silent W) reqs past st tail) as (n1 & outs & closed & st1 & _ & _ & Hs); try assumption.
  - intros q w r Hq Hr. unfold watchful. destruct (method_eqb (r_method r) TRACE) eqn:E; [|apply (HO q w r Hq Hr)].
    exfalso. apply method_eqb_eq in E. apply (HT q Hq). destruct Hr as (r0 & Mn & SV & _). rewrite <- E, (sv_method _ _ SV). symmetry. apply (mn_method _ _ _ Mn).
  - specialize (Hm n1). rewrite (Hs (m + n1)%nat ltac:(lia)) in Hm. unfold close_with in Hm. cbn [silent run_handler] in Hm. destruct closed; discriminate Hm.
Qed.

(* ---- applications that leave the writing to the server ---- *)
Section QuietApp.
Variable W : Type.
Variable os : list (list nat * rop W).
Hypothesis HA : QuietApp os.
Lemma behind_quiet : forall (ms : list (middleware W)) h, Forall KeepsQuiet ms -> Quiet h -> Quiet (behind ms h).
Proof. intros ms h H Hh. induction H as [|m ms Hm _ IH]; [exact Hh|]. cbn [behind fold_right]. apply Hm. exact IH. Qed.
Lemma uses_quiet : forall addr, Forall KeepsQuiet (uses os addr).
Proof.
  intros addr. apply Forall_forall. intros mw H. unfold uses, calls in H. apply in_flat_map in H. destruct H as (o & Ho & Hm).
  apply in_map_iff in Ho. destruct Ho as ([a o'] & E & Ho). cbn [snd] in E. subst o'. apply filter_In in Ho. destruct Ho as [Ho _].
  pose proof (HA a o Ho) as X. destruct o; try contradiction. exact (proj1 (Forall_forall _ _) X mw Hm).
Qed.
Lemma chain_quiet : forall addr, Forall KeepsQuiet (chain os addr).
Proof.
  intros addr. unfold chain. generalize (@nil nat) as pre. induction addr as [|i addr IH]; intros pre; cbn [chain_below]; apply Forall_app; split; try apply uses_quiet; [apply Forall_nil|apply IH].
Qed.
Lemma registered_quiet : forall p m h, In (p, m, h) (registered os) -> Quiet h.
Proof.
  intros p m h H. unfold registered in H. apply in_flat_map in H. destruct H as ([a o] & Ho & Hi). cbn [snd fst] in Hi. pose proof (HA a o Ho) as X. destruct o; try contradiction.
  cbn in Hi. destruct Hi as [[= _ _ <-]|[]]. apply behind_quiet; [apply Forall_app; split; [apply chain_quiet|apply X]|apply X].
Qed.
Lemma caught_quiet : forall p h, In (p, h) (caught os) -> Quiet h.
Proof.
  intros p h H. unfold caught in H. apply in_flat_map in H. destruct H as ([a o] & Ho & Hi). cbn [snd fst] in Hi. pose proof (HA a o Ho) as X. destruct o; try contradiction.
  cbn in Hi. destruct Hi as [[= _ <-]|[]]. apply behind_quiet; [apply Forall_app; split; [apply chain_quiet|apply X]|apply X].
Qed.
Lemma default_quiet : Quiet (@default_all_errors W). Proof. intros w r. apply Nw_ret. Qed.
Lemma not_allowed_quiet : Quiet (@default_method_not_allowed W).
Proof. intros w r. unfold default_method_not_allowed. destruct (resp_header _ _ _); [apply Nw_ret|apply Nw_crash]. Qed.
Lemma handler_for_quiet : forall c h, handler_for os c = Some h -> Quiet h.
Proof.
  intros c. unfold handler_for.
  assert (G : forall acc, (forall h, acc = Some h -> Quiet h) -> forall l : list (list nat * rop W), incl l os -> forall h, fold_left (fun acc x => match snd x with
      | OnErrors h cs => if existsb (N.eqb c) (match cs with [] => [AllErrors] | _ => cs end) then Some h else acc | _ => acc end) l acc = Some h -> Quiet h).
  { intros acc Hacc l. revert acc Hacc. induction l as [|[a o] l IH]; intros acc Hacc Hl h H; cbn [fold_left] in H; [exact (Hacc h H)|].
    refine (IH _ _ (fun z Hz => Hl z (or_intror Hz)) h H). pose proof (HA a o (Hl _ (or_introl eq_refl))) as X. cbn [snd]. destruct o; try exact Hacc.
    destruct (existsb _ _); [intros h' [= <-]; exact X|exact Hacc]. }
  apply G; [|apply incl_refl]. intros h. destruct (c =? AllErrors)%N; [intros [= <-]; apply default_quiet|]. destruct (c =? 405)%N; [intros [= <-]; apply not_allowed_quiet|discriminate].
Qed.
Lemma errors_quiet : forall c, Quiet (error_choice os c).
Proof.
  intros c. unfold error_choice. apply behind_quiet; [apply uses_quiet|]. destruct (handler_for os c) as [h|] eqn:E; [exact (handler_for_quiet c h E)|].
  destruct (handler_for os AllErrors) as [h|] eqn:E2; [exact (handler_for_quiet _ h E2)|apply default_quiet].
Qed.
Variable x : runtime W.
Hypothesis HR : Running os x.
Lemma err_quiet : forall w r e, NoWrites (on_err x w r (EHttp e)).
Proof.
  intros w r e.
  assert (D : (exists h p, In (p, h) (caught os) /\ on_err x w r (EHttp e) = h w r) \/ (e = ErrNotFound -> forall p h, In (p, h) (caught os) -> ~ Prefix p (r_path r))).
  { destruct (is_err (EHttp e) ErrNotFound) eqn:E; [|right; intros ->; discriminate]. cbn [is_err] in E. apply http_error_eqb_eq in E. subst e.
    destruct (running_catchers W os x HR) as [C1 C2]. destruct (find_catcher (x_catchers x) (r_path r)) as [h|] eqn:EF.
    - left. destruct (find_catcher_some W _ _ _ C2 EF) as (p & Hp & _). exists h, p. split; [eapply Permutation_in; [exact C1|exact Hp]|].
      unfold on_err. replace (method_eqb (r_method r) TRACE && is_err (EHttp ErrNotFound) ErrMethodNotAllowed) with false by (rewrite andb_comm; reflexivity).
      change (is_err (EHttp ErrNotFound) ErrNotFound) with true. cbn iota. rewrite EF. reflexivity.
    - right. intros _ p h Hi. apply (proj1 (find_catcher_none W _ _) EF p h). eapply Permutation_in; [apply Permutation_sym; exact C1|exact Hi]. }
  destruct D as [(h & p & Hi & E)|D]; [rewrite E; exact (caught_quiet p h Hi w r)|].
  destruct (method_eqb (r_method r) TRACE && is_err (EHttp e) ErrMethodNotAllowed) eqn:ET.
  - unfold on_err. rewrite ET. apply Nw_ret.
  - rewrite (errors_handled W os x w r e HR); [apply Nw_update; apply errors_quiet| |exact D]. intros [E1 ->]. rewrite E1 in ET. discriminate.
Qed.
Lemma router_quiet : (forall w r, NoWrites (on_request x w r)) /\ (forall w r e, NoWrites (on_error x w r e)).
Proof.
  split.
  - intros w r. unfold on_request. apply Nw_update. destruct (route x r) as [r' t] eqn:E. destruct t as [h|e|].
    + destruct (reached W os x r h HR) as (p & m & Hi & _); [rewrite E; reflexivity|]. exact (registered_quiet p m h Hi w r').
    + apply err_quiet.
    + apply Nw_crash.
  - intros w r e. unfold on_error. apply Nw_update. apply err_quiet.
Qed.
End QuietApp.

(* ---- everything together ---- *)
Theorem served_at_once : forall CS cparse encoded fresh inside,
  DecoderOk CS cparse encoded fresh inside -> forall max, (max < two64)%Z ->
  forall cfg umax kmax vmax fbs defs, distinct_names defs ->
  forall W (os : list (list nat * rop W)) x, Running os x -> PlainAliases os -> OrdinaryApp fbs os -> OwnApp os -> QuietApp os ->
  forall reqs past (st : conn CS (world W)) tail, Routable os reqs ->
  Between umax kmax vmax fbs defs fresh past st -> cl_wres (k_client st) = [] ->
  Forall (GoodRequest encoded (cfg_limits cfg umax kmax vmax) max) reqs ->
  Unfinished (cfg_limits cfg umax kmax vmax) tail ->
  stream (k_client st) = concat (map wire reqs) ++ tail ->
  (forall q, In q reqs -> h_method (q_head q) <> TRACE) ->
  exists outs w' closed n, Dialogue defs os reqs (k_world st) past outs w' closed /\
  forall l m m' i, nth_error (m_slots m) i = Some (Going st) -> steps_seeing cparse max cfg (on_request x) (on_error x) l m = Some m' ->
    match nth_error (m_slots m') i with
    | Some (Going st') => ((turns i (map fst l) < n)%nat \/ NoticeFails cparse max (on_error x)) /\ exists left, cl_out (k_client st) ++ outs = cl_out (k_client st') ++ left
    | Some (Over e st') => cl_out (k_client st') = cl_out (k_client st) ++ outs /\
                           (e = (match closed with None => EndRead | Some _ => EndWrite end) \/ NoticeFails cparse max (on_error x))
    | None => False
    end.
Proof.
  intros CS cparse encoded fresh inside HD max HM cfg umax kmax vmax fbs defs DN W os x HR HP HO HOwn HQ reqs past st tail HRo HB HW HG HU HS HT.
  destruct (router_quiet W os HQ x HR) as [Q1 Q2].
  destruct (end_to_end CS cparse encoded fresh inside HD max HM cfg umax kmax vmax fbs defs DN W os x HR HP HO reqs past st tail HRo HB HG HU HS) as (n & outs & closed & st1 & HDg & Hout & Hserve).
  pose proof (good_asks CS cparse encoded fresh inside HD max HM cfg umax kmax vmax fbs defs DN (world W) (on_request x) (on_error x) reqs past st tail (ordinary_router W os x HR HP fbs reqs HO HRo) HB HG HU HS HT) as HAsk.
  exists outs, (k_world st1), closed, n. split; [exact HDg|]. intros l m m' i Hi Hl.
  destruct (alone_seeing CS cparse max cfg (world W) (on_request x) (on_error x) NotTrace (router_own W os x HR HP HOwn) l st m m' i (Going st) Hi Hl HAsk 0%nat) as (y & Hy & HL); [repeat split|].
  cbn [Nat.add] in HL. rewrite Hy. set (t := turns i (map fst l)) in *.
  assert (Hk : forall e st', close_with cparse max (on_error x) e st1 = st' -> cl_out (k_client (snd st')) = cl_out (k_client st) ++ outs).
  { intros e st' <-. pose proof (close_out CS cparse max (world W) (on_error x) Q2 e st1) as K. destruct K as [K _]. rewrite <- Hout. exact K. }
  assert (Hc : forall e, fst (close_with cparse max (on_error x) e st1) = e \/ NoticeFails cparse max (on_error x)).
  { intros e. unfold close_with. destruct (run_handler cparse max (on_error x (k_world st1) (p_req (k_parser st1)) ErrCloseConnection) (p_req (k_parser st1)) (k_body st1) (k_client st1)) as [resp w r1 b1 c1|r1 b1 c1|] eqn:E.
    - left. reflexivity.
    - right. eexists _, _, _, _. rewrite E. exact I.
    - right. eexists _, _, _, _. rewrite E. exact I. }
  destruct (alone cparse max cfg (on_request x) (on_error x) t st) as [b|e b] eqn:Ea; destruct y as [a|e' a]; cbn [LikeSlot] in HL; try contradiction.
  - destruct HL as (_ & _ & Ecl & _). rewrite Ecl.
    pose proof (alone_going CS cparse max cfg (world W) (on_request x) (on_error x) t st b Ea) as Hsv. split.
    + destruct (Nat.lt_ge_cases t n) as [H|H]; [left; exact H|]. specialize (Hsv 0%nat). rewrite Nat.add_0_r, (Hserve t H) in Hsv. cbn [serve] in Hsv.
      destruct (Hc (match closed with None => EndRead | Some _ => EndWrite end)) as [X|X]; [|right; exact X]. rewrite Hsv in X. destruct closed; discriminate X.
    + assert (Wb : cl_wres (k_client b) = []).
      { pose proof (serve_grows CS cparse max cfg (world W) (on_request x) (on_error x) Q1 Q2 (t + 0) st HW) as G. rewrite Hsv in G. cbn [serve snd] in G. apply G. }
      pose proof (serve_grows CS cparse max cfg (world W) (on_request x) (on_error x) Q1 Q2 n b Wb) as [_ (more & G)]. rewrite <- Hsv in G.
      rewrite (Hserve (t + n)%nat ltac:(lia)) in G. rewrite (Hk _ _ eq_refl) in G. exists more. exact G.
  - destruct HL as (-> & _ & _ & Ecl & _). rewrite Ecl. pose proof (alone_serve CS cparse max cfg (world W) (on_request x) (on_error x) t st e b Ea n) as Hsv.
    rewrite (Hserve (t + n)%nat ltac:(lia)) in Hsv. split.
    + pose proof (Hk _ _ Hsv) as X. exact X.
    + destruct (Hc (match closed with None => EndRead | Some _ => EndWrite end)) as [X|X]; [left|right; exact X]. rewrite Hsv in X. exact X.
Qed.
