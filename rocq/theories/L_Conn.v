(* Lemmas: the answers of a body during a request. *)
From Verif Require Import M_Base M_Status M_Method M_Proto M_KeyValue M_Query M_Request M_Parser M_Client M_Body
  M_Response M_Serializer M_Suit S_KeyValue S_Chunk S_Head S_Parser S_Body S_Response S_Conn L_Base L_Body L_Body2.

Section View.
Variable CS : Type.
Variable cparse : CS -> bytes -> bool -> CS * (bytes * bytes * option cerr).
Variable max : Z.
Variable Inv : body CS -> client -> bytes -> Prop.
Variable End : body CS -> client -> Prop.
Variable more : bytes -> Prop.
Notation retrieve := (retrieve cparse max).
Hypothesis step : forall b c left, Inv b c left -> exists d e b' c',
  retrieve b c = ((d, e), b', c') /\
  bd_full b' = bd_full b /\ bd_pending b' = bd_pending b /\ bd_error b' = bd_error b /\
  ((e = None /\ exists left', left = d ++ left' /\ more left' /\ Inv b' c' left' /\ (csize c' < csize c)%nat) \/
   (e = Some BEof /\ d = left /\ End b' c')).
Hypothesis inv_eof : forall b c left, Inv b c left -> bd_eof b = false.
Hypothesis end_eof : forall b c, End b c -> bd_eof b = true.
Hypothesis inv_full : forall b c left f cap, Inv b c left -> Inv (set_full f cap b) c left.
Hypothesis end_full : forall b c f cap, End b c -> End (set_full f cap b) c.
Hypothesis inv_stash : forall b c left p e, Inv b c left -> Inv (set_stash p e b) c left.
Hypothesis end_stash : forall b c p e, End b c -> End (set_stash p e b) c.
Hypothesis inv_alloc : forall b c left, Inv b c left -> bd_chunked b = true \/ (bd_clen b <= max_alloc)%Z.

(* what the object has to do with the view; the connection's output is not touched *)
Record Rep (b : body CS) (c : client) (v : view) : Prop := {
  rp_where : (v_end v = false /\ Inv b c (v_left v)) \/ (v_end v = true /\ v_left v = [] /\ End b c);
  rp_stash : bd_pending b = v_stash v;
  rp_error : bd_error b = if v_stash_end v then Some BEof else None;
  rp_whole : forall d, v_whole v = Some d -> v_end v = true /\ bd_full b = d
}.
Definition kept (c c' : client) : Prop := cl_out c' = cl_out c /\ cl_wres c' = cl_wres c.

Lemma read_kept : forall c x c', client_read c = (x, c') -> kept c c'.
Proof. intros [net p out w] x c' H. unfold client_read in H. cbn in H. destruct p; [destruct net|]; injection H as <- <-; split; reflexivity. Qed.
Lemma retrieve_kept : forall b c x b' c', retrieve b c = (x, b', c') -> kept c c'.
Proof.
  intros b c x b' c' H. unfold M_Body.retrieve in H. destruct (bd_eof b); [injection H as <- <- <-; split; reflexivity|].
  destruct (bd_chunked b).
  - destruct (chunked_read cparse max b c) as [[y b1] c1] eqn:E. injection H as <- <- <-. unfold chunked_read in E.
    destruct (client_read c) as [[data e] c2] eqn:Er. apply read_kept in Er. destruct e; [injection E as <- <- <-; exact Er|].
    destruct (cparse _ _ _) as [cs' [[chunk extra] ce]]. destruct ce as [[|]|].
    + destruct (_ || _); injection E as <- <- <-; exact Er.
    + injection E as <- <- <-; exact Er.
    + destruct (_ || _); injection E as <- <- <-; exact Er.
  - destruct (plain_read max b c) as [[y b1] c1] eqn:E. injection H as <- <- <-. unfold plain_read in E.
    destruct (bd_left b =? 0)%Z; [injection E as <- <- <-; split; reflexivity|].
    destruct (client_read c) as [[data e] c2] eqn:Er. apply read_kept in Er. destruct e; [injection E as <- <- <-; exact Er|].
    destruct (_ >? _)%Z; [injection E as <- <- <-; exact Er|]. destruct (_ >=? _)%Z; injection E as <- <- <-; exact Er.
Qed.
Lemma kept_refl : forall c, kept c c. Proof. split; reflexivity. Qed.
Lemma kept_trans : forall a b c, kept a b -> kept b c -> kept a c.
Proof. intros a b c [H1 H2] [H3 H4]. split; congruence. Qed.
Lemma bytes_loop_kept : forall n b c r b' c', bytes_loop cparse max n b c = (r, b', c') -> kept c c'.
Proof.
  induction n as [|n IH]; intros b c r b' c' H; cbn [bytes_loop] in H; [injection H as <- <- <-; apply kept_refl|].
  destruct (retrieve b c) as [[[d e] b1] c1] eqn:E. apply retrieve_kept in E.
  destruct e as [[| | |]|]; try (injection H as <- <- <-; exact E). eapply kept_trans; [exact E|]. eapply IH. exact H.
Qed.
Lemma callback_loop_kept : forall n cb seen b c ps r b' c', callback_loop cparse max n cb seen b c = (ps, r, b', c') -> kept c c'.
Proof.
  induction n as [|n IH]; intros cb seen b c ps r b' c' H; cbn [callback_loop] in H; [injection H as <- <- <- <-; apply kept_refl|].
  destruct (retrieve b c) as [[[d e] b1] c1] eqn:E. apply retrieve_kept in E.
  destruct e as [[| | |]|]; try (injection H as <- <- <- <-; exact E).
  destruct (cb _); [|injection H as <- <- <- <-; exact E]. eapply kept_trans; [exact E|]. eapply IH. exact H.
Qed.
Lemma discard_loop_kept : forall n b c r b' c', discard_loop cparse max n b c = (r, b', c') -> kept c c'.
Proof.
  induction n as [|n IH]; intros b c r b' c' H; cbn [discard_loop] in H; [injection H as <- <- <-; apply kept_refl|].
  destruct (bd_eof b); [injection H as <- <- <-; apply kept_refl|].
  destruct (retrieve b c) as [[[d e] b1] c1] eqn:E. apply retrieve_kept in E.
  destruct e as [[| | |]|]; try (injection H as <- <- <-; exact E). eapply kept_trans; [exact E|]. eapply IH. exact H.
Qed.
Lemma read_op_kept : forall n b c x b' c', body_read cparse max n b c = (x, b', c') -> kept c c'.
Proof.
  intros n b c x b' c' H. unfold body_read in H.
  destruct (bd_pending b); [destruct (bd_error b)|].
  - injection H as <- <- <-. apply kept_refl.
  - destruct (retrieve b c) as [[[d e] b1] c1] eqn:E. injection H as <- <- <-. eapply retrieve_kept. exact E.
  - injection H as <- <- <-. apply kept_refl.
Qed.
Lemma op_kept : forall op b c o b' c', body_op cparse max op b c = (o, b', c') -> kept c c'.
Proof.
  intros op b c o b' c' H. destruct op; cbn [body_op] in H.
  - destruct (body_bytes _ _ _ _) as [[r b1] c1] eqn:E. injection H as <- <- <-. unfold body_bytes in E.
    destruct (bd_eof b); [injection E as <- <- <-; apply kept_refl|]. destruct (_ && (bd_clen b >? _)%Z); [injection E as <- <- <-; apply kept_refl|].
    eapply bytes_loop_kept. exact E.
  - destruct (retrieve b c) as [[[d e] b1] c1] eqn:E. injection H as <- <- <-. eapply retrieve_kept. exact E.
  - destruct (body_read _ _ _ _ _) as [[[d e] b1] c1] eqn:E. injection H as <- <- <-. eapply read_op_kept. exact E.
  - destruct (body_callback _ _ _ _ _) as [[[ps r] b1] c1] eqn:E. injection H as <- <- <-. eapply callback_loop_kept. exact E.
  - destruct (body_discard _ _ _ _) as [[r b1] c1] eqn:E. injection H as <- <- <-. eapply discard_loop_kept. exact E.
Qed.

Lemma piece_ok : forall b c v, Rep b c v -> exists d e b' c' v',
  retrieve b c = ((d, e), b', c') /\ Piece more v d e v' /\ Rep b' c' v' /\ v_stash v' = v_stash v /\ v_stash_end v' = v_stash_end v /\
  (e = None -> (csize c' < csize c)%nat) /\ (e = None \/ e = Some BEof) /\ v_whole v' = v_whole v.
Proof.
  intros b c [l en st se wh] [H1 H2 H3 H4]. cbn [v_left v_end v_stash v_stash_end v_whole] in *. destruct H1 as [[-> HI] | (-> & -> & HE)].
  - destruct (step _ _ _ HI) as (d & e & b1 & c1 & Hr & Hf & Hp & He & Hc).
    assert (Hw : wh = None). { destruct wh as [x|]; [|reflexivity]. destruct (H4 x eq_refl) as [K _]. discriminate K. }
    subst wh.
    destruct Hc as [(-> & l' & -> & Hm & HI' & Hsz) | (-> & -> & HE)].
    + exists d, None, b1, c1, (View l' false st se None). split; [exact Hr|]. split; [apply Pc_more; exact Hm|].
      split; [|repeat split; auto]. constructor; cbn; try congruence. left. auto.
    + exists l, (Some BEof), b1, c1, (View [] true st se None). split; [exact Hr|]. split; [apply Pc_last|].
      split; [|repeat split; auto; discriminate]. constructor; cbn; try congruence. right. auto.
  - exists [], (Some BEof), b, c, (View [] true st se wh). split; [unfold M_Body.retrieve; rewrite (end_eof _ _ HE); reflexivity|].
    split; [apply Pc_end|]. split; [|repeat split; auto; discriminate]. constructor; cbn; auto.
Qed.

Lemma pieces_ok : forall n b c v cb seen, Rep b c v -> (csize c < n)%nat -> exists all res b' c' v',
  callback_loop cparse max n cb seen b c = (all, res, b', c') /\ Pieces more cb seen v all res v' /\ Rep b' c' v' /\
  (res = None \/ res = Some (Some BEof)).
Proof.
  induction n as [|n IH]; intros b c v cb seen HR Hn; [lia|].
  destruct (piece_ok _ _ _ HR) as (d & e & b1 & c1 & v1 & Hr & Hp & HR1 & _ & _ & Hsz & He & _).
  cbn [callback_loop]. rewrite Hr. destruct He as [-> | ->].
  - destruct (cb (seen ++ [d])) eqn:Ec.
    + destruct (IH b1 c1 v1 cb (seen ++ [d]) HR1) as (all & res & b2 & c2 & v2 & H1 & H2 & H3 & H4); [specialize (Hsz eq_refl); lia|].
      exists all, res, b2, c2, v2. split; [exact H1|]. split; [eapply Ps_more; eassumption|]. auto.
    + exists (seen ++ [d]), None, b1, c1, v1. split; [reflexivity|]. split; [eapply Ps_refused; eassumption|]. auto.
  - destruct (cb (seen ++ [d])) eqn:Ec.
    + exists (seen ++ [d]), (Some (Some BEof)), b1, c1, v1. split; [reflexivity|]. split; [eapply Ps_done; eassumption|]. auto.
    + exists (seen ++ [d]), None, b1, c1, v1. split; [reflexivity|]. split; [eapply Ps_refused; eassumption|]. auto.
Qed.

Lemma answer_ok : forall op b c v, Rep b c v -> exists o b' c' v',
  body_op cparse max op b c = (o, b', c') /\ Answer more v op o v' /\ Rep b' c' v' /\ stops o = None.
Proof.
  intros op b c v HR. destruct op; cbn [body_op].
  - (* Bytes *)
    destruct v as [l en st se wh]. destruct HR as [H1 H2 H3 H4]. cbn [v_left v_end v_stash v_stash_end v_whole] in *.
    destruct H1 as [[-> HI] | (-> & -> & HE)].
    + destruct (bytes_ok CS cparse max Inv End more step inv_eof inv_full end_full inv_alloc _ _ _ HI) as (b' & c' & Hb & HE & Hf).
      assert (Hst : bd_pending b' = bd_pending b /\ bd_error b' = bd_error b).
      { clear - Hb step HI inv_full inv_eof inv_alloc. unfold body_bytes in Hb. rewrite (inv_eof _ _ _ HI) in Hb.
        destruct (_ && (bd_clen b >? _)%Z); [discriminate|].
        set (b0 := set_full [] _ b) in Hb.
        assert (K : forall n b0 c l r b' c', Inv b0 c l -> bytes_loop cparse max n b0 c = (r, b', c') -> bd_pending b' = bd_pending b0 /\ bd_error b' = bd_error b0).
        { clear - step inv_full. induction n as [|n IH]; intros b0 c l r b' c' HI H; cbn [bytes_loop] in H; [injection H as <- <- <-; auto|].
          destruct (step _ _ _ HI) as (d & e & b1 & c1 & Hr & Hf & Hp & He & Hc). rewrite Hr in H.
          destruct Hc as [(-> & l' & -> & Hm & HI' & Hsz) | (-> & -> & HE)].
          - destruct (IH _ _ _ _ _ _ (inv_full _ _ _ (bd_full b1 ++ d) (Z.max (bd_cap b1) (len (bd_full b1 ++ d))) HI') H) as [K1 K2].
            cbn [set_full bd_pending bd_error] in K1, K2. split; congruence.
          - injection H as <- <- <-. cbn [set_full bd_pending bd_error]. auto. }
        apply (K _ b0 _ l) in Hb; [|apply inv_full; exact HI]. exact Hb. }
      destruct Hst as [Hs1 Hs2]. rewrite Hb. eexists _, _, _, _. split; [reflexivity|]. split; [apply An_bytes|]. split; [|reflexivity].
      constructor; cbn; try congruence. right. auto. intros d E. injection E as <-. auto.
    + unfold body_bytes. rewrite (end_eof _ _ HE). destruct wh as [d|].
      * destruct (H4 d eq_refl) as [_ Hd]. rewrite Hd. eexists _, _, _, _. split; [reflexivity|]. split; [apply An_again|]. split; [|reflexivity].
        constructor; cbn; auto.
      * eexists _, _, _, _. split; [reflexivity|]. split; [apply An_stale|]. split; [|reflexivity]. constructor; cbn; auto. 
  - destruct (piece_ok _ _ _ HR) as (d & e & b1 & c1 & v1 & Hr & Hp & HR1 & _). rewrite Hr.
    eexists _, _, _, _. split; [reflexivity|]. split; [apply An_retrieve; exact Hp|]. split; [exact HR1|reflexivity].
  - (* Read *)
    pose proof HR as [H1 H2 H3 H4]. unfold body_read. destruct (bd_pending b) as [|x p] eqn:Ep; [destruct (bd_error b) as [er|] eqn:Ee|].
    + rewrite Ep, Ee. destruct v as [l en st se wh]. cbn [v_left v_end v_stash v_stash_end v_whole] in *. subst st. destruct se; [|discriminate].
      injection H3 as ->. rewrite firstn_nil, skipn_nil.
      exists (RPiece [] (Some BEof)), (set_stash [] (Some BEof) b), c, (View l en [] true wh). split; [reflexivity|]. split.
      * pose proof (An_read_held more l en [] true wh n (or_intror eq_refl)) as K. rewrite firstn_nil, skipn_nil in K. exact K.
      * split; [|reflexivity]. constructor; cbn; auto. destruct H1 as [[? ?] | (? & ? & ?)]; [left|right]; auto.
    + destruct (piece_ok _ _ _ HR) as (d & e & b1 & c1 & v1 & Hr & Hp & HR1 & Hs1 & Hs2 & _ & He & Hw). rewrite Hr.
      cbn [set_stash bd_pending bd_error].
      assert (Hse : v_stash_end v = false) by (destruct (v_stash_end v); [discriminate|reflexivity]).
      exists (RPiece (firstn n d) (match skipn n d with [] => e | _ => None end)), (set_stash (skipn n d) e (set_stash d e b1)), c1,
        (View (v_left v1) (v_end v1) (skipn n d) (match e with Some _ => true | None => false end) (v_whole v1)).
      split; [reflexivity|]. split; [apply (An_read more v d e v1 n); auto|]. split; [|destruct (skipn n d); reflexivity].
      destruct HR1 as [K1 K2 K3 K4]. constructor; cbn.
      * destruct K1 as [[? ?] | (? & ? & ?)]; [left|right]; auto.
      * reflexivity.
      * destruct He as [-> | ->]; reflexivity.
      * exact K4.
    + rewrite Ep. destruct v as [l en st se wh]. cbn [v_left v_end v_stash v_stash_end v_whole] in *. subst st.
      eexists _, _, _, (View l en (skipn n (x :: p)) se wh). split; [reflexivity|]. split.
      * rewrite H3. apply An_read_held. left. discriminate.
      * split; [|destruct (skipn n (x :: p)); reflexivity]. constructor; cbn [set_stash bd_pending bd_error bd_full v_left v_end v_stash v_stash_end v_whole]; auto.
        destruct H1 as [[? ?] | (? & ? & ?)]; [left|right]; auto.
  - destruct (pieces_ok (loop_fuel c) b c v cb [] HR) as (all & res & b1 & c1 & v1 & Hr & Hp & HR1 & He); [unfold loop_fuel, csize; lia|].
    unfold body_callback. rewrite Hr. eexists _, _, _, _. split; [reflexivity|]. split; [apply An_callback; exact Hp|]. split; [exact HR1|].
    destruct He as [-> | ->]; reflexivity.
  - destruct v as [l en st se wh]. pose proof HR as [H1 H2 H3 H4]. cbn [v_left v_end v_stash v_stash_end v_whole] in *.
    destruct H1 as [[-> HI] | (-> & -> & HE)].
    + assert (K : forall n b c l, Inv b c l -> (csize c < n)%nat -> exists b' c', discard_loop cparse max n b c = (Some None, b', c') /\ End b' c' /\
          bd_pending b' = bd_pending b /\ bd_error b' = bd_error b /\ bd_full b' = bd_full b).
      { clear - step inv_eof. induction n as [|n IH]; intros b c l HI Hn; [lia|]. cbn [discard_loop]. rewrite (inv_eof _ _ _ HI).
        destruct (step _ _ _ HI) as (d & e & b1 & c1 & Hr & Hf & Hp & He & Hc). rewrite Hr.
        destruct Hc as [(-> & l' & -> & Hm & HI' & Hsz) | (-> & -> & HE)].
        - destruct (IH _ _ _ HI') as (b' & c' & K1 & K2 & K3 & K4 & K5); [lia|]. exists b', c'. repeat split; auto; congruence.
        - exists b1, c1. auto. }
      destruct (K (loop_fuel c) b c l HI) as (b' & c' & K1 & K2 & K3 & K4 & K5); [unfold loop_fuel, csize; lia|].
      unfold body_discard. rewrite K1. eexists _, _, _, _. split; [reflexivity|]. split; [apply An_discard|]. split; [|reflexivity].
      assert (Hw : wh = None). { destruct wh as [x|]; [|reflexivity]. destruct (H4 x eq_refl) as [K0 _]. discriminate K0. }
      subst wh. constructor; cbn; try congruence. right. auto.
    + rewrite (discard_end CS cparse max End end_eof _ _ HE). eexists _, _, _, _. split; [reflexivity|]. split; [apply An_discard|]. split; [|reflexivity].
      constructor; cbn; auto.
Qed.

(* a whole handler *)
Definition ended {W} (x : hres CS W) (o : hout W) (r : request) (b : body CS) (c : client) : Prop :=
  match o with Returns resp w => x = HDone resp w r b c | Panics => x = HPanic r b c end.
Definition allowed {W} (ok : option fields -> Prop) (panics : bool) (o : hout W) : Prop :=
  match o with Returns resp _ => ok resp | Panics => panics = true end.
Lemma tame_ok : forall W ok panics (h : hprog W), Tame ok panics h -> forall r b c v, Rep b c v -> r_hijacked r = false -> QueryFresh (r_query r) ->
  exists o r' b' c' v', ended (run_handler cparse max h r b c) o r' b' c' /\ allowed ok panics o /\
    HSteps more h r v o r' v' /\ Rep b' c' v' /\ kept c c' /\
    r_hijacked r' = false /\ r_upgrade r' = r_upgrade r /\ QueryFresh (r_query r').
Proof.
  intros W ok panics h Ho.
  induction Ho as [ok panics resp w Hs|ok|ok panics op k Hk IH|ok panics g k Hg Hk IH|ok panics k Hk IH|ok mid panics p q k Hp IHp Hq IHq Hk IHk]; intros r b c v HR Hj Hq0; cbn [run_handler].
  - exists (Returns resp w), r, b, c, v. split; [reflexivity|]. split; [exact Hs|]. split; [apply HS_ret|]. split; [exact HR|]. split; [apply kept_refl|]. auto.
  - exists Panics, r, b, c, v. split; [reflexivity|]. split; [reflexivity|]. split; [apply HS_crash|]. split; [exact HR|]. split; [apply kept_refl|]. auto.
  - destruct (answer_ok op b c v HR) as (x & b1 & c1 & v1 & H1 & H2 & H3 & H4).
    destruct (IH x r b1 c1 v1 H3 Hj Hq0) as (o & r' & b' & c' & v' & K1 & K2 & K3 & K4 & K5 & K6).
    exists o, r', b', c', v'. rewrite H1.
    assert (E : stops x = None) by (destruct x as [[]| | ? [[]|] | []]; cbn in H4 |- *; congruence || reflexivity).
    rewrite E. split; [exact K1|]. split; [exact K2|]. split; [eapply HS_body; eassumption|]. split; [exact K4|]. split; [|exact K6].
    eapply kept_trans; [|exact K5]. eapply op_kept. exact H1.
  - destruct (Hg r) as (G1 & G2 & G3).
    destruct (IH (g r) b c v HR) as (o & r' & b' & c' & v' & K1 & K2 & K3 & K4 & K5 & K6 & K7 & K8); [congruence|auto|].
    exists o, r', b', c', v'. split; [exact K1|]. split; [exact K2|]. split; [apply HS_update; exact K3|]. split; [exact K4|]. split; [exact K5|].
    repeat split; auto; congruence.
  - destruct (IH r r b c v HR Hj Hq0) as (o & r' & b' & c' & v' & K1 & K2 & K3 & K4). exists o, r', b', c', v'.
    split; [exact K1|]. split; [exact K2|]. split; [apply HS_look; exact K3|]. exact K4.
  - destruct (IHp r b c v HR Hj Hq0) as (o1 & r1 & b1 & c1 & v1 & K1 & K2 & K3 & K4 & K5 & K6 & K7 & K8).
    destruct o1 as [resp w|]; cbn [ended allowed] in K1, K2; rewrite K1.
    + destruct (IHk resp w K2 r1 b1 c1 v1 K4 K6 K8) as (o & r' & b' & c' & v' & L1 & L2 & L3 & L4 & L5 & L6 & L7 & L8).
      exists o, r', b', c', v'. split; [exact L1|]. split; [exact L2|]. split; [eapply HS_try; eassumption|]. split; [exact L4|].
      split; [eapply kept_trans; eassumption|]. repeat split; auto; congruence.
    + destruct (IHq r1 b1 c1 v1 K4 K6 K8) as (o2 & r2 & b2 & c2 & v2 & M1 & M2 & M3 & M4 & M5 & M6 & M7 & M8).
      destruct o2 as [resp w|]; cbn [ended allowed] in M1, M2; rewrite M1.
      * destruct (IHk resp w M2 r2 b2 c2 v2 M4 M6 M8) as (o & r' & b' & c' & v' & L1 & L2 & L3 & L4 & L5 & L6 & L7 & L8).
        exists o, r', b', c', v'. split; [exact L1|]. split; [exact L2|]. split; [eapply HS_recover; eassumption|]. split; [exact L4|].
        split; [eapply kept_trans; [exact K5|]; eapply kept_trans; eassumption|]. repeat split; auto; congruence.
      * exists Panics, r2, b2, c2, v2. split; [reflexivity|]. split; [exact M2|]. split; [eapply HS_again; eassumption|]. split; [exact M4|].
        split; [eapply kept_trans; eassumption|]. repeat split; auto; congruence.
Qed.
Lemma handler_ok : forall W fbs (h : hprog W), Ordinary fbs h -> forall r b c v, Rep b c v -> r_hijacked r = false -> QueryFresh (r_query r) ->
  exists resp w r' b' c' v', run_handler cparse max h r b c = HDone resp w r' b' c' /\
    HRun more h r v resp w r' /\ Rep b' c' v' /\ kept c c' /\
    r_hijacked r' = false /\ r_upgrade r' = r_upgrade r /\ QueryFresh (r_query r') /\
    (forall f, resp = Some f -> Sendable fbs f).
Proof.
  intros W fbs h Ho r b c v HR Hj Hq. destruct (tame_ok W (CanBeSent fbs) false h Ho r b c v HR Hj Hq) as (o & r' & b' & c' & v' & K1 & K2 & K3 & K4 & K5 & K6 & K7 & K8).
  destruct o as [resp w|]; cbn [ended allowed] in K1, K2; [|discriminate]. exists resp, w, r', b', c', v'. split; [exact K1|]. split; [exists v'; exact K3|]. auto 10.
Qed.

(* discarding what is left *)
Lemma rep_discard : forall b c v, Rep b c v -> exists b' c', body_discard cparse max b c = (Some None, b', c') /\ End b' c' /\ kept c c'.
Proof.
  intros b c v HR. destruct (answer_ok ODiscard b c v HR) as (o & b' & c' & v' & H1 & H2 & H3 & _).
  cbn [body_op] in H1. destruct (body_discard cparse max b c) as [[x b1] c1] eqn:E. injection H1 as <- <- <-.
  inversion H2; subst. exists b1, c1. split; [reflexivity|]. destruct H3 as [[[K _]|(_ & _ & K)] _ _ _]; [discriminate|].
  split; [exact K|]. eapply discard_loop_kept. exact E.
Qed.
End View.
