(* Lemmas: a server with virtual hosts. *)
From Verif Require Import M_Base M_Status M_Method M_Proto M_KeyValue M_Query M_Request M_Parser M_Client M_Body
  M_Response M_Serializer M_Suit M_Virtual S_KeyValue S_Static S_Virtual S_Chunk S_Head S_Parser S_Body S_Response S_Conn S_Fail S_VirtualServe
  L_Base L_KeyValue L_Virtual L_Conn2 L_Conn3 P_Conn.

Lemma field_values : forall ls, all_values (field_pairs ls) (B "host") = map hl_value (filter (S_Head.named (B "host")) ls).
Proof.
  intros ls. unfold all_values, field_pairs. induction ls as [|l ls IH]; [reflexivity|]. cbn [filter].
  assert (E : same_keyb (hl_key l) (B "host") = S_Head.named (B "host") l).
  { unfold S_Head.named. destruct (equal_fold (hl_key l) (B "host")) eqn:E1.
    - unfold same_keyb. destruct (list_eq_dec _ _ _) as [Y|N]; [reflexivity|]. exfalso. apply N. rewrite equal_fold_sym in E1. apply same_key_fold in E1. exact E1.
    - unfold same_keyb. destruct (list_eq_dec _ _ _) as [Y|N]; [|reflexivity]. exfalso. assert (K : same_key (hl_key l) (B "host")) by exact Y. apply same_key_fold in K. rewrite equal_fold_sym in K. congruence. }
  destruct (is_content_length l) eqn:Ec; cbn [negb].
  - assert (E0 : S_Head.named (B "host") l = false).
    { destruct (S_Head.named (B "host") l) eqn:E0; [|reflexivity]. exfalso. unfold is_content_length in Ec.
      rewrite equal_fold_sym in Ec. apply same_key_fold in Ec.
      unfold S_Head.named in E0. rewrite equal_fold_sym in E0. apply same_key_fold in E0. unfold same_key in *. rewrite Ec in E0. vm_compute in E0. discriminate. }
    rewrite E0. exact IH.
  - cbn [map filter fst]. rewrite E. destruct (S_Head.named (B "host") l); cbn [map snd]; rewrite IH; reflexivity.
Qed.
Lemma shown_hosts : forall h r, Shows h r -> hosts_of r = host_lines h.
Proof.
  intros h r (r0 & M & V & _). unfold hosts_of, host_lines. rewrite (sv_headers _ _ V), (mn_headers _ _ _ M).
  change (kv_pairs (r_headers new_request)) with (@nil pair_t). cbn [app]. apply field_values.
Qed.
Lemma unseen_view : forall g r, Unseen g -> SameView (g r) r /\ r_hijacked (g r) = r_hijacked r.
Proof. intros g r H. destruct (H r) as (vs & ->). split; [constructor; reflexivity|reflexivity]. Qed.
Lemma unseen_shows : forall g h r, Unseen g -> Shows h r -> Shows h (g r).
Proof.
  intros g h r Hg (r0 & M & V & J). destruct (unseen_view g r Hg) as [V1 J1]. exists r0. split; [exact M|]. split; [|congruence].
  destruct V1, V. constructor; congruence.
Qed.
Section V.
Variable W : Type.
Lemma sends : forall (os : list (vop W)) w r, exists c, SendsTo os (hosts_of r) c /\ v_request (v_build os) w r = HUpdate looked_up (answerer c w (looked_up r)).
Proof.
  intros os w r. pose proof (default_spec W os) as HD. unfold v_request. rewrite get_router_spec.
  destruct (hosts_of r) as [|h [|h' l]].
  - destruct (v_default (v_build os)) as [x|]; [exists (inl x); split; [apply To_missing; exact HD|reflexivity]|exists (inr 400%N); split; [apply To_400; exact HD|reflexivity]].
  - pose proof (hosts_spec W os h) as HH. destruct (v_find (v_hosts (v_build os)) h) as [x|]; [exists (inl x); split; [apply To_known; exact HH|reflexivity]|].
    destruct (v_default (v_build os)) as [x|]; [exists (inl x); split; [apply To_unknown; assumption|reflexivity]|exists (inr 421%N); split; [apply To_421; assumption|reflexivity]].
  - exists (inr 400%N). split; [apply To_several|reflexivity].
Qed.
Lemma sends_all : forall (os : list (vop W)) hs, exists c, SendsTo os hs c.
Proof.
  intros os hs. pose proof (default_spec W os) as HD. destruct hs as [|h [|h' l]].
  - destruct (v_default (v_build os)) as [x|]; eexists; [apply To_missing|apply To_400]; exact HD.
  - pose proof (hosts_spec W os h) as HH. destruct (v_find (v_hosts (v_build os)) h) as [x|]; [eexists; apply To_known; exact HH|].
    destruct (v_default (v_build os)) as [x|]; eexists; [eapply To_unknown|apply To_421]; eassumption.
  - eexists. apply To_several.
Qed.
Lemma sends_once : forall (os : list (vop W)) hs c c', SendsTo os hs c -> SendsTo os hs c' -> c = c'.
Proof.
  intros os hs c c' H H'.
  assert (U : forall h x y, HostIs os h x -> HostIs os h y -> x = y) by (intros; eapply host_unique; eassumption).
  assert (D : forall x y, DefaultIs os x -> DefaultIs os y -> x = y) by (intros; eapply default_unique; eassumption).
  assert (N : forall h x, HostIs os h x -> NoHost os h -> False) by (intros h x A B; exact (host_none W os h x A B)).
  assert (Nd : forall x, DefaultIs os x -> NoDefault os -> False) by (intros x A B; exact (default_none W os x A B)).
  inversion H; subst; inversion H'; subst; try reflexivity; try (exfalso; eauto; fail); f_equal; eauto.
Qed.
Lemma sent_in : forall (os : list (vop W)) hs x, SendsTo os hs (inl x) -> exists o, In o os /\ ((exists h, o = VHost h x) \/ o = VDefault x).
Proof.
  assert (A : forall os h x, @HostIs W os h x -> exists o, In o os /\ ((exists h, o = VHost h x) \/ o = VDefault x)).
  { intros os h x (a & o & n & b & -> & (h0 & -> & _) & _). exists (VHost h0 x). split; [apply in_or_app; right; left; reflexivity|]. left. exists h0. reflexivity. }
  assert (B : forall os x, @DefaultIs W os x -> exists o, In o os /\ ((exists h, o = VHost h x) \/ o = VDefault x)).
  { intros os x (a & o & b & -> & S & _). exists o. split; [apply in_or_app; right; left; reflexivity|]. destruct S as [->|(h & n & -> & _)]; [right; reflexivity|left; exists h; reflexivity]. }
  intros os hs x H. inversion H; subst; eauto.
Qed.
Lemma looked_up_harmless : harmless looked_up.
Proof. intros r. split; [reflexivity|]. split; [reflexivity|]. intros H. exact H. Qed.
Lemma ordinary_hosts : forall fbs (os : list (vop W)), OrdinaryHosts fbs os -> forall w r, Ordinary fbs (v_request (v_build os) w r).
Proof.
  intros fbs os Ho w r. destruct (sends os w r) as (c & S & ->). apply Ta_update; [apply looked_up_harmless|]. destruct c as [x|c].
  - destruct (sent_in os _ x S) as (o & I & K). apply (Ho o x I K).
  - apply Ta_ret. intros f E. injection E as <-. apply Sd_plain. reflexivity.
Qed.
Lemma quiet_hosts : forall (os : list (vop W)), QuietHosts os ->
  (forall w r, NoWrites (v_request (v_build os) w r)) /\ (forall w r e, NoWrites (v_error (v_build os) w r e)).
Proof.
  intros os Hq. split.
  - intros w r. destruct (sends os w r) as (c & S & ->). apply Nw_update. destruct c as [x|c]; [|apply Nw_ret].
    destruct (sent_in os _ x S) as (o & I & K). apply (Hq o x I K).
  - intros w r e. pose proof (default_spec W os) as HD. unfold v_error. rewrite get_router_spec. apply Nw_update.
    assert (A : forall x, SendsTo os (hosts_of r) (inl x) -> NoWrites (ro_error x w (looked_up r) e)).
    { intros x S. destruct (sent_in os _ x S) as (o & I & K). apply (Hq o x I K). }
    destruct (hosts_of r) as [|h [|h' l]].
    + destruct (v_default (v_build os)) as [x|]; [apply A, To_missing, HD|apply Nw_ret].
    + pose proof (hosts_spec W os h) as HH. destruct (v_find (v_hosts (v_build os)) h) as [x|]; [apply A, To_known, HH|].
      destruct (v_default (v_build os)) as [x|]; [apply A; eapply To_unknown; eassumption|apply Nw_ret].
    + apply Nw_ret.
Qed.
Lemma run_update : forall more g (h : hprog W) r v resp w r', HRun more (HUpdate g h) r v resp w r' -> HRun more h (g r) v resp w r'.
Proof. intros more g h r v resp w r' (v' & H). inversion H; subst. exists v'. assumption. Qed.
Lemma host_dialogue : forall defs (os : list (vop W)) reqs w past outs w' closed,
  Conversation defs (v_request (v_build os)) reqs w past outs w' closed -> HostDialogue defs os reqs w past outs w' closed.
Proof.
  intros defs os reqs w past outs w' closed H. induction H as [w past|q reqs w past r resp w1 r' out outs w2 closed S R T O C IH|q reqs w past r resp w1 r' out S R T O].
  - apply Hd_end.
  - destruct (sends os w r) as (c & Sc & E). rewrite E in R. apply run_update in R. rewrite (shown_hosts _ _ S) in Sc.
    eapply Hd_open; [exact Sc|exact (unseen_shows _ _ _ looked_up_unseen S)|exact R|exact T|exact O|exact IH].
  - destruct (sends os w r) as (c & Sc & E). rewrite E in R. apply run_update in R. rewrite (shown_hosts _ _ S) in Sc.
    eapply Hd_close; [exact Sc|exact (unseen_shows _ _ _ looked_up_unseen S)|exact R|exact T|exact O].
Qed.
End V.
Theorem virtual_served : forall CS cparse encoded fresh inside,
  DecoderOk CS cparse encoded fresh inside -> forall max, (max < two64)%Z ->
  forall cfg umax kmax vmax fbs defs, distinct_names defs ->
  forall W (os : list (vop W)), OrdinaryHosts fbs os ->
  forall reqs past (st : conn CS W) tail,
  Between umax kmax vmax fbs defs fresh past st ->
  Forall (GoodRequest encoded (cfg_limits cfg umax kmax vmax) max) reqs ->
  Unfinished (cfg_limits cfg umax kmax vmax) tail ->
  stream (k_client st) = concat (map wire reqs) ++ tail ->
  exists n outs closed st1,
    HostDialogue defs os reqs (k_world st) past outs (k_world st1) closed /\
    cl_out (k_client st1) = cl_out (k_client st) ++ outs /\
    forall fuel, (n <= fuel)%nat ->
      serve cparse max cfg (v_request (v_build os)) (v_error (v_build os)) fuel st =
      close_with cparse max (v_error (v_build os)) (match closed with None => EndRead | Some _ => EndWrite end) st1.
Proof.
  intros CS cparse encoded fresh inside Hd max Hm cfg umax kmax vmax fbs defs Hn W os Ho reqs past st tail Hb Hg Hu Hs.
  destruct (C07_conversation_partial CS cparse encoded fresh inside Hd max Hm cfg umax kmax vmax fbs defs Hn W (v_request (v_build os)) (v_error (v_build os)) reqs past st tail
    (fun q w r _ _ => ordinary_hosts W fbs os Ho w r) Hb Hg Hu Hs) as (n & outs & closed & st1 & C & Eo & F).
  exists n, outs, closed, st1. split; [apply host_dialogue; exact C|]. split; [exact Eo|exact F].
Qed.
Lemma hosted : forall W (os : list (vop W)) more h w r v resp w1 r', Shows h r ->
  HRun more (v_request (v_build os) w r) r v resp w1 r' ->
  exists r1 c, Shows h r1 /\ SendsTo os (host_lines h) c /\ HRun more (answerer c w r1) r1 v resp w1 r'.
Proof.
  intros W os more h w r v resp w1 r' S R. destruct (sends W os w r) as (c & Sc & E). rewrite E in R. apply run_update in R. rewrite (shown_hosts _ _ S) in Sc.
  exists (looked_up r), c. split; [exact (unseen_shows _ _ _ looked_up_unseen S)|]. split; [exact Sc|exact R].
Qed.
