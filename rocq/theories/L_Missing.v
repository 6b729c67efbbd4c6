(* Lemmas: fixed-length bodies that do not come, during a request. *)
From Verif Require Import M_Base M_Status M_Method M_Proto M_KeyValue M_Query M_Request M_Parser M_Client M_Body
  M_Response M_Serializer M_Suit M_Path M_Radix M_Router S_KeyValue S_Chunk S_Head S_Parser S_Body S_Response S_Split S_Verdict S_Arrive S_Conn S_Routes S_Router S_Serve S_Upgrade S_Talk S_Missing
  L_Base L_Body L_Body2 L_Conn L_Conn2.

Section View.
Variable CS : Type.
Variable cparse : CS -> bytes -> bool -> CS * (bytes * bytes * option cerr).
Variable max : Z.
Hypothesis max_pos : (0 <= max)%Z.
Variables long hung big : bool.
Notation retrieve := (retrieve cparse max).
Notation MPiece := (MPiece long hung).
Notation MPieces := (MPieces long hung).
Notation MAnswer := (MAnswer long hung big).
Notation fails := (S_Missing.fails long hung).

Definition MInv (b : body CS) (c : client) (left : bytes) : Prop :=
  bd_eof b = false /\ bd_chunked b = false /\ (big = false -> (bd_clen b <= max_alloc)%Z) /\ Gone hung (cl_net c) /\
  if long then (max < bd_left b)%Z /\ left = [] else left = stream c /\ (len left < bd_left b <= max)%Z.
Definition MEnd (b : body CS) (c : client) : Prop := bd_eof b = true /\ reads_of c = [].

(* one read of a connection that comes to an end *)
Lemma gone_read : forall c, Gone hung (cl_net c) -> exists d e c', client_read c = ((d, e), c') /\ cl_pending c' = [] /\
  match e with
  | None => stream c = d ++ stream c' /\ (csize c' < csize c)%nat /\ Gone hung (cl_net c')
  | Some NEof => hung = true /\ stream c = [] /\ reads_of c' = []
  | Some NOther => hung = false /\ stream c = [] /\ stream c' = [] /\ Gone hung (cl_net c')
  end.
Proof.
  intros [net p out w] H. unfold client_read, stream, csize, reads_of. cbn [cl_net cl_pending] in *. destruct p as [|x p].
  - destruct net as [|[d e] net].
    + inversion H as [| |net0 Hh Hf]; subst. eexists _, _, _. split; [reflexivity|]. cbn. auto.
    + eexists _, _, _. split; [reflexivity|]. split; [reflexivity|]. cbn [cl_net cl_pending]. inversion H as [d0 net0 G|d0 net0 Hh Hn|net0 Hh Hf]; subst.
      * split; [reflexivity|]. split; [unfold net_size; cbn; lia|exact G].
      * cbn. auto.
      * inversion Hf as [|? ? E F]; subst. cbn [snd] in E. subst e. cbn. split; [reflexivity|]. split; [reflexivity|]. split; [|apply Gn_broken; auto].
        destruct net as [|[d1 e1] net]; [reflexivity|]. inversion F as [|? ? E1 _]; subst. cbn [snd] in E1. subst e1. reflexivity.
  - eexists _, _, _. split; [reflexivity|]. cbn. split; [reflexivity|]. split; [reflexivity|]. split; [unfold net_size; cbn; lia|exact H].
Qed.

Lemma missing_step : forall b c left, MInv b c left -> exists d e b' c',
  retrieve b c = ((d, e), b', c') /\ bd_full b' = bd_full b /\ bd_pending b' = bd_pending b /\ bd_error b' = bd_error b /\
  ((e = None /\ exists left', left = d ++ left' /\ MInv b' c' left' /\ (csize c' < csize c)%nat) \/
   (left = [] /\ d = [] /\ exists x, e = Some x /\ fails x /\ MInv b' c' []) \/
   (left = [] /\ d = [] /\ e = Some BEof /\ hung = true /\ MEnd b' c')).
Proof.
  intros b c left (H1 & H2 & H3 & H4 & H5). unfold M_Body.retrieve. rewrite H1, H2. unfold plain_read.
  assert (L0 : (bd_left b =? 0)%Z = false). { apply Z.eqb_neq. destruct long; [lia|]. unfold len in H5. lia. }
  rewrite L0. destruct (gone_read c H4) as (d & e & c' & R & Rp & K). rewrite R. destruct e as [[|]|].
  - destruct K as (K1 & K2 & K3). exists [], (Some BEof), (set_eof true b), c'. split; [reflexivity|]. repeat (split; [reflexivity|]). right. right.
    assert (left = []) by (destruct long; [apply H5|destruct H5 as [-> _]; exact K2]). subst left. repeat (split; [reflexivity|]). split; [exact K1|]. split; [reflexivity|exact K3].
  - destruct K as (K1 & K2 & K3 & K4). exists [], (Some BNet), b, c'. split; [reflexivity|]. repeat (split; [reflexivity|]). right. left.
    assert (left = []) by (destruct long; [apply H5|destruct H5 as [-> _]; exact K2]). subst left. split; [reflexivity|]. split; [reflexivity|]. exists BNet. split; [reflexivity|].
    split; [right; auto|]. repeat (split; [assumption|]). destruct long; [exact H5|]. split; [symmetry; exact K3|apply H5].
  - destruct K as (K1 & K2 & K3). destruct long eqn:El.
    + destruct H5 as [H5 ->]. replace (bd_left b >? max)%Z with true by (symmetry; apply Z.gtb_lt; exact H5).
      exists [], (Some BTooLarge), b, c'. split; [reflexivity|]. repeat (split; [reflexivity|]). right. left. split; [reflexivity|]. split; [reflexivity|]. exists BTooLarge.
      split; [reflexivity|]. split; [left; auto|]. unfold MInv. rewrite El. auto 10.
    + destruct H5 as [-> H5]. replace (bd_left b >? max)%Z with false by (rewrite Z.gtb_ltb; symmetry; apply Z.ltb_ge; lia).
      rewrite K1 in *. unfold len in H5. rewrite app_length in H5.
      replace (len d >=? bd_left b)%Z with false by (rewrite Z.geb_leb; symmetry; apply Z.leb_gt; unfold len; lia).
      exists d, None, (set_left (bd_left b - len d) b), c'. split; [reflexivity|]. repeat (split; [reflexivity|]). left. split; [reflexivity|]. exists (stream c').
      split; [reflexivity|]. split; [|exact K2]. unfold MInv. rewrite El. cbn [set_left bd_eof bd_chunked bd_clen bd_left]. repeat (split; [assumption|]). split; [reflexivity|].
      unfold len. lia.
Qed.

Record MRep (b : body CS) (c : client) (v : mview) : Prop := {
  mr_where : (m_end v = false /\ MInv b c (m_left v)) \/ (m_end v = true /\ m_left v = [] /\ MEnd b c);
  mr_stash : bd_pending b = m_stash v;
  mr_error : bd_error b = m_note v;
  mr_whole : forall d, m_whole v = Some d -> m_end v = true /\ bd_full b = d
}.
Lemma fails_not_eof : forall e, fails e -> e <> BEof.
Proof. intros e [[-> _]|[-> _]]; discriminate. Qed.
Lemma mpiece_ok : forall b c v, MRep b c v -> exists d e b' c' v',
  retrieve b c = ((d, e), b', c') /\ MPiece v d e v' /\ MRep b' c' v' /\ m_stash v' = m_stash v /\ m_note v' = m_note v /\
  (e = None -> (csize c' < csize c)%nat) /\ m_whole v' = m_whole v.
Proof.
  intros b c [l en st se wh] [H1 H2 H3 H4]. cbn [m_left m_end m_stash m_note m_whole] in *. destruct H1 as [[-> HI] | (-> & -> & HE)].
  - destruct (missing_step _ _ _ HI) as (d & e & b1 & c1 & Hr & Hf & Hp & He & Hc).
    assert (Hw : wh = None). { destruct wh as [x|]; [|reflexivity]. destruct (H4 x eq_refl) as [K _]. discriminate K. }
    subst wh. destruct Hc as [(-> & l' & -> & HI' & Hsz) | [(-> & -> & x & -> & Hx & HI')|(-> & -> & -> & Hh & HE)]].
    + exists d, None, b1, c1, (MView l' false st se None). split; [exact Hr|]. split; [apply Mp_more|].
      split; [|repeat split; auto]. constructor; cbn; try congruence. left. auto.
    + exists [], (Some x), b1, c1, (MView [] false st se None). split; [exact Hr|]. split; [apply Mp_fail; exact Hx|].
      split; [|repeat split; auto; discriminate]. constructor; cbn; try congruence. left. auto.
    + exists [], (Some BEof), b1, c1, (MView [] true st se None). split; [exact Hr|]. split; [apply Mp_last; exact Hh|].
      split; [|repeat split; auto; discriminate]. constructor; cbn; try congruence. right. auto.
  - exists [], (Some BEof), b, c, (MView [] true st se wh). split; [unfold M_Body.retrieve; rewrite (proj1 HE); reflexivity|].
    split; [apply Mp_end|]. split; [|repeat split; auto; discriminate]. constructor; cbn; auto.
Qed.

Lemma mpieces_ok : forall n b c v cb seen, MRep b c v -> (csize c < n)%nat -> exists all res b' c' v',
  callback_loop cparse max n cb seen b c = (all, res, b', c') /\ MPieces cb seen v all res v' /\ MRep b' c' v' /\ res <> Some None.
Proof.
  induction n as [|n IH]; intros b c v cb seen HR Hn; [lia|].
  destruct (mpiece_ok _ _ _ HR) as (d & e & b1 & c1 & v1 & Hr & Hp & HR1 & _ & _ & Hsz & _).
  cbn [callback_loop]. rewrite Hr. destruct e as [e|].
  - destruct e as [| | |] eqn:Ee.
    + destruct (cb (seen ++ [d])) eqn:Ec.
      * exists (seen ++ [d]), (Some (Some BEof)), b1, c1, v1. split; [reflexivity|]. split; [eapply Ms_done; eassumption|]. split; [exact HR1|discriminate].
      * exists (seen ++ [d]), None, b1, c1, v1. split; [reflexivity|]. split; [eapply Ms_refused; eauto|]. split; [exact HR1|discriminate].
    + exists seen, (Some (Some BNet)), b1, c1, v1. split; [reflexivity|]. split; [eapply Ms_failed; [exact Hp|discriminate]|]. split; [exact HR1|discriminate].
    + exists seen, (Some (Some BTooLarge)), b1, c1, v1. split; [reflexivity|]. split; [eapply Ms_failed; [exact Hp|discriminate]|]. split; [exact HR1|discriminate].
    + exists seen, (Some (Some BChunkErr)), b1, c1, v1. split; [reflexivity|]. split; [eapply Ms_failed; [exact Hp|discriminate]|]. split; [exact HR1|discriminate].
  - destruct (cb (seen ++ [d])) eqn:Ec.
    + destruct (IH b1 c1 v1 cb (seen ++ [d]) HR1) as (all & res & b2 & c2 & v2 & H1 & H2 & H3 & H4); [specialize (Hsz eq_refl); lia|].
      exists all, res, b2, c2, v2. split; [exact H1|]. split; [eapply Ms_more; eassumption|]. auto.
    + exists (seen ++ [d]), None, b1, c1, v1. split; [reflexivity|]. split; [eapply Ms_refused; eauto|]. split; [exact HR1|discriminate].
Qed.
Lemma mbytes_loop : forall n b c left, MInv b c left -> (csize c < n)%nat -> exists x b' c', bytes_loop cparse max n b c = (x, b', c') /\
  bd_pending b' = bd_pending b /\ bd_error b' = bd_error b /\
  ((hung = true /\ MEnd b' c' /\ x = BROk (bd_full b ++ left) /\ bd_full b' = bd_full b ++ left) \/ (exists e, fails e /\ x = BRErr e /\ MInv b' c' [])).
Proof.
  induction n as [|n IH]; intros b c left HI Hn; [lia|]. cbn [bytes_loop].
  destruct (missing_step _ _ _ HI) as (d & e & b1 & c1 & Hr & Hf & Hp & He & Hc). rewrite Hr.
  destruct Hc as [(-> & l' & -> & HI' & Hsz) | [(-> & -> & x & -> & Hx & HI')|(-> & -> & -> & Hh & HE)]].
  - destruct (IH (set_full (bd_full b1 ++ d) (Z.max (bd_cap b1) (len (bd_full b1 ++ d))) b1) c1 l' HI' ltac:(lia)) as (x & b' & c' & K1 & K2 & K3 & K4).
    exists x, b', c'. split; [exact K1|]. split; [rewrite K2; exact Hp|]. split; [rewrite K3; exact He|].
    destruct K4 as [(L1 & L2 & L3 & L4)|L]; [left|right; exact L]. cbn [set_full bd_full] in L3, L4. rewrite Hf, <- app_assoc in L3, L4. auto.
  - assert (X : match x with BEof => (BROk (bd_full (set_full (bd_full b1 ++ []) (Z.max (bd_cap b1) (len (bd_full b1 ++ []))) b1)), set_full (bd_full b1 ++ []) (Z.max (bd_cap b1) (len (bd_full b1 ++ []))) b1, c1)
      | er => (BRErr er, set_full (bd_full b1 ++ []) (Z.max (bd_cap b1) (len (bd_full b1 ++ []))) b1, c1) end = (BRErr x, set_full (bd_full b1 ++ []) (Z.max (bd_cap b1) (len (bd_full b1 ++ []))) b1, c1)).
    { pose proof (fails_not_eof _ Hx). destruct x; congruence. }
    eexists _, _, _. split; [exact X|]. split; [exact Hp|]. split; [exact He|]. right. exists x. auto.
  - eexists _, _, _. split; [reflexivity|]. split; [exact Hp|]. split; [exact He|]. left. cbn [set_full bd_full]. rewrite Hf. auto.
Qed.
Lemma mdiscard_loop : forall n b c left, MInv b c left -> (csize c < n)%nat -> exists x b' c', discard_loop cparse max n b c = (Some x, b', c') /\
  bd_pending b' = bd_pending b /\ bd_error b' = bd_error b /\
  ((hung = true /\ MEnd b' c' /\ x = None) \/ (exists e, fails e /\ x = Some e /\ MInv b' c' [])).
Proof.
  induction n as [|n IH]; intros b c left HI Hn; [lia|]. cbn [discard_loop]. rewrite (proj1 HI).
  destruct (missing_step _ _ _ HI) as (d & e & b1 & c1 & Hr & Hf & Hp & He & Hc). rewrite Hr.
  destruct Hc as [(-> & l' & -> & HI' & Hsz) | [(-> & -> & x & -> & Hx & HI')|(-> & -> & -> & Hh & HE)]].
  - destruct (IH b1 c1 l' HI' ltac:(lia)) as (x & b' & c' & K1 & K2 & K3 & K4). exists x, b', c'. split; [exact K1|]. split; [congruence|]. split; [congruence|exact K4].
  - assert (X : match x with BEof => (Some None, b1, c1) | er => (Some (Some er), b1, c1) end = (Some (Some x), b1, c1)) by (pose proof (fails_not_eof _ Hx); destruct x; congruence).
    eexists _, _, _. split; [exact X|]. split; [exact Hp|]. split; [exact He|]. right. exists x. auto.
  - eexists _, _, _. split; [reflexivity|]. split; [exact Hp|]. split; [exact He|]. left. auto.
Qed.
Lemma manswer_ok : forall op b c v, MRep b c v -> exists o b' c' v',
  body_op cparse max op b c = (o, b', c') /\ MAnswer v op o v' /\ MRep b' c' v' /\ (stops o = None \/ o = RBytes BRPanic /\ big = true).
Proof.
  intros op b c v HR. destruct op; cbn [body_op].
  - destruct v as [l en st se wh]. destruct HR as [H1 H2 H3 H4]. cbn [m_left m_end m_stash m_note m_whole] in *.
    destruct H1 as [[-> HI] | (-> & -> & HE)].
    + unfold body_bytes. pose proof HI as (I1 & I2 & I3 & _). rewrite I1, I2. cbn [negb andb].
      destruct ((bd_cap b <? bd_clen b)%Z && (bd_clen b >? max_alloc)%Z) eqn:Eg.
      { apply Bool.andb_true_iff in Eg. destruct Eg as [_ Eg]. rewrite Z.gtb_ltb in Eg. apply Z.ltb_lt in Eg.
        assert (Hb : big = true) by (destruct big; [reflexivity|specialize (I3 eq_refl); lia]).
        eexists _, _, _, _. split; [reflexivity|]. split; [apply Ma_panics; exact Hb|]. split; [|right; auto]. constructor; cbn; auto. }
      destruct (mbytes_loop (loop_fuel c) (set_full [] (if (bd_cap b <? bd_clen b)%Z then bd_clen b else bd_cap b) b) c l HI) as (x & b' & c' & K1 & K2 & K3 & K4);
        [unfold loop_fuel, csize; lia|].
      rewrite K1. cbn [set_full bd_pending bd_error bd_full app] in K2, K3, K4. destruct K4 as [(L1 & L2 & -> & L4)|(e & Fe & -> & L)].
      * eexists _, _, _, _. split; [reflexivity|]. split; [apply Ma_bytes; exact L1|]. split; [|left; reflexivity]. constructor; cbn; try congruence; [right; auto|].
        intros d E. injection E as <-. auto.
      * eexists _, _, _, _. split; [reflexivity|]. split; [apply Ma_fails; exact Fe|]. split; [|left; reflexivity]. constructor; cbn; try congruence. left. auto.
    + unfold body_bytes. rewrite (proj1 HE). destruct wh as [d|].
      * destruct (H4 d eq_refl) as [_ Hd]. rewrite Hd. eexists _, _, _, _. split; [reflexivity|]. split; [apply Ma_again|]. split; [|left; reflexivity]. constructor; cbn; auto.
      * eexists _, _, _, _. split; [reflexivity|]. split; [apply Ma_stale|]. split; [|left; reflexivity]. constructor; cbn; auto.
  - destruct (mpiece_ok _ _ _ HR) as (d & e & b1 & c1 & v1 & Hr & Hp & HR1 & _). rewrite Hr.
    eexists _, _, _, _. split; [reflexivity|]. split; [apply Ma_retrieve; exact Hp|]. split; [exact HR1|left; reflexivity].
  - pose proof HR as [H1 H2 H3 H4]. unfold body_read. destruct (bd_pending b) as [|x p] eqn:Ep; [destruct (bd_error b) as [er|] eqn:Ee|].
    + rewrite Ep, Ee. destruct v as [l en st se wh]. cbn [m_left m_end m_stash m_note m_whole] in *. subst st se. rewrite firstn_nil, skipn_nil.
      exists (RPiece [] (Some er)), (set_stash [] (Some er) b), c, (MView l en [] (Some er) wh). split; [reflexivity|]. split.
      * assert (Ne : @nil byte <> [] \/ Some er <> None) by (right; discriminate). pose proof (Ma_read_held long hung big l en [] (Some er) wh n Ne) as K. rewrite firstn_nil, skipn_nil in K. exact K.
      * split; [|left; reflexivity]. constructor; cbn; auto.
    + destruct (mpiece_ok _ _ _ HR) as (d & e & b1 & c1 & v1 & Hr & Hp & HR1 & Hs1 & Hs2 & _ & Hw). rewrite Hr.
      cbn [set_stash bd_pending bd_error].
      exists (RPiece (firstn n d) (match skipn n d with [] => e | _ => None end)), (set_stash (skipn n d) e (set_stash d e b1)), c1,
        (MView (m_left v1) (m_end v1) (skipn n d) e (m_whole v1)).
      split; [reflexivity|]. split; [apply (Ma_read long hung big v d e v1 n); auto|]. split; [|left; destruct (skipn n d); reflexivity].
      destruct HR1 as [K1 K2 K3 K4]. constructor; cbn; auto.
    + rewrite Ep. destruct v as [l en st se wh]. cbn [m_left m_end m_stash m_note m_whole] in *. subst st.
      eexists _, _, _, (MView l en (skipn n (x :: p)) se wh). split; [reflexivity|]. split.
      * rewrite H3. apply Ma_read_held. left. discriminate.
      * split; [|left; destruct (skipn n (x :: p)); reflexivity]. constructor; cbn [set_stash bd_pending bd_error bd_full m_left m_end m_stash m_note m_whole]; auto.
  - destruct (mpieces_ok (loop_fuel c) b c v cb [] HR) as (all & res & b1 & c1 & v1 & Hr & Hp & HR1 & He); [unfold loop_fuel, csize; lia|].
    unfold body_callback. rewrite Hr. eexists _, _, _, _. split; [reflexivity|]. split; [apply Ma_callback; exact Hp|]. split; [exact HR1|]. left.
    destruct res as [[|]|]; cbn; congruence.
  - destruct v as [l en st se wh]. pose proof HR as [H1 H2 H3 H4]. cbn [m_left m_end m_stash m_note m_whole] in *. unfold body_discard.
    destruct H1 as [[-> HI] | (-> & -> & HE)].
    + assert (Hw : wh = None). { destruct wh as [x|]; [|reflexivity]. destruct (H4 x eq_refl) as [K0 _]. discriminate K0. } subst wh.
      destruct (mdiscard_loop (loop_fuel c) b c l HI) as (x & b' & c' & K1 & K2 & K3 & [(L1 & L2 & ->)|(e & Fe & -> & L)]); [unfold loop_fuel, csize; lia| |]; rewrite K1.
      * eexists _, _, _, _. split; [reflexivity|]. split; [apply Ma_discard; right; exact L1|]. split; [|left; reflexivity]. constructor; cbn; try congruence. right. auto.
      * eexists _, _, _, _. split; [reflexivity|]. split; [apply Ma_discards; exact Fe|]. split; [|left; reflexivity]. constructor; cbn; try congruence. left. auto.
    + unfold loop_fuel. cbn [discard_loop]. rewrite (proj1 HE). eexists _, _, _, _. split; [reflexivity|]. split; [apply Ma_discard; left; reflexivity|]. split; [|left; reflexivity].
      constructor; cbn; auto.
Qed.

Lemma mtame_ok : forall W ok panics (h : hprog W), Tame ok panics h -> forall r b c v, MRep b c v -> r_hijacked r = false -> QueryFresh (r_query r) ->
  exists o r' b' c' v', ended CS (run_handler cparse max h r b c) o r' b' c' /\ allowed ok (panics || big)%bool o /\
    HGoes MAnswer h r v o r' v' /\ MRep b' c' v' /\ kept c c' /\
    r_hijacked r' = false /\ r_upgrade r' = r_upgrade r /\ QueryFresh (r_query r').
Proof.
  intros W ok panics h Ho.
  induction Ho as [ok panics resp w Hs|ok|ok panics op k Hk IH|ok panics g k Hg Hk IH|ok panics k Hk IH|ok mid panics p q k Hp IHp Hq IHq Hk IHk]; intros r b c v HR Hj Hq0; cbn [run_handler].
  - exists (Returns resp w), r, b, c, v. split; [reflexivity|]. split; [exact Hs|]. split; [apply HG_ret|]. split; [exact HR|]. split; [apply kept_refl|]. auto.
  - exists Panics, r, b, c, v. split; [reflexivity|]. split; [cbn; destruct big; reflexivity|]. split; [apply HG_crash|]. split; [exact HR|]. split; [apply kept_refl|]. auto.
  - destruct (manswer_ok op b c v HR) as (x & b1 & c1 & v1 & H1 & H2 & H3 & H4). destruct H4 as [H4|[-> Hb]].
    + destruct (IH x r b1 c1 v1 H3 Hj Hq0) as (o & r' & b' & c' & v' & K1 & K2 & K3 & K4 & K5 & K6).
      exists o, r', b', c', v'. rewrite H1, H4. split; [exact K1|]. split; [exact K2|].
      split; [eapply HG_body; [exact H2|intros ->; discriminate H4|exact K3]|]. split; [exact K4|]. split; [|exact K6].
      eapply kept_trans; [|exact K5]. eapply op_kept. exact H1.
    + exists Panics, r, b1, c1, v1. rewrite H1. split; [reflexivity|]. split; [cbn; rewrite Hb; apply Bool.orb_true_r|]. split; [eapply HG_bang; exact H2|]. split; [exact H3|].
      split; [eapply op_kept; exact H1|]. auto.
  - destruct (Hg r) as (G1 & G2 & G3).
    destruct (IH (g r) b c v HR) as (o & r' & b' & c' & v' & K1 & K2 & K3 & K4 & K5 & K6 & K7 & K8); [congruence|auto|].
    exists o, r', b', c', v'. split; [exact K1|]. split; [exact K2|]. split; [apply HG_update; exact K3|]. split; [exact K4|]. split; [exact K5|].
    repeat split; auto; congruence.
  - destruct (IH r r b c v HR Hj Hq0) as (o & r' & b' & c' & v' & K1 & K2 & K3 & K4). exists o, r', b', c', v'.
    split; [exact K1|]. split; [exact K2|]. split; [apply HG_look; exact K3|]. exact K4.
  - destruct (IHp r b c v HR Hj Hq0) as (o1 & r1 & b1 & c1 & v1 & K1 & K2 & K3 & K4 & K5 & K6 & K7 & K8).
    destruct o1 as [resp w|]; cbn [ended allowed] in K1, K2; rewrite K1.
    + destruct (IHk resp w K2 r1 b1 c1 v1 K4 K6 K8) as (o & r' & b' & c' & v' & L1 & L2 & L3 & L4 & L5 & L6 & L7 & L8).
      exists o, r', b', c', v'. split; [exact L1|]. split; [exact L2|]. split; [eapply HG_try; eassumption|]. split; [exact L4|].
      split; [eapply kept_trans; eassumption|]. repeat split; auto; congruence.
    + destruct (IHq r1 b1 c1 v1 K4 K6 K8) as (o2 & r2 & b2 & c2 & v2 & M1 & M2 & M3 & M4 & M5 & M6 & M7 & M8).
      destruct o2 as [resp w|]; cbn [ended allowed] in M1, M2; rewrite M1.
      * destruct (IHk resp w M2 r2 b2 c2 v2 M4 M6 M8) as (o & r' & b' & c' & v' & L1 & L2 & L3 & L4 & L5 & L6 & L7 & L8).
        exists o, r', b', c', v'. split; [exact L1|]. split; [exact L2|]. split; [eapply HG_recover; eassumption|]. split; [exact L4|].
        split; [eapply kept_trans; [exact K5|]; eapply kept_trans; eassumption|]. repeat split; auto; congruence.
      * exists Panics, r2, b2, c2, v2. split; [reflexivity|]. split; [exact M2|]. split; [eapply HG_again; eassumption|]. split; [exact M4|].
        split; [eapply kept_trans; eassumption|]. repeat split; auto; congruence.
Qed.
(* the same object over a connection on which only something was sent *)
Lemma mrep_moved : forall b c c' v, same_input c c' -> MRep b c v -> MRep b c' v.
Proof.
  intros b c c' v [E1 E2] [H1 H2 H3 H4]. constructor; auto. destruct H1 as [[A B]|(A & A2 & B)]; [left|right]; split; auto.
  - destruct B as (B1 & B2 & B3 & B4 & B5). unfold MInv, stream. rewrite E1, E2. auto.
  - split; [exact A2|]. destruct B as [B1 B2]. unfold MEnd, reads_of. rewrite E1, E2. auto.
Qed.
End View.
