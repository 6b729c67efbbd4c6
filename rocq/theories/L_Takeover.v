(* Lemmas: handlers that may take over the connection. *)
From Verif Require Import M_Base M_Status M_Method M_Proto M_KeyValue M_Query M_Request M_Parser M_Client M_Body
  M_Response M_Serializer M_Suit S_KeyValue S_Chunk S_Head S_Parser S_Body S_Response S_Conn S_Upgrade S_Takeover
  L_Base L_Head L_Body L_Body2 L_Body3 L_BodyProps L_Response L_Response2 L_Response3 L_Attach L_Conn L_Conn2 L_Conn3 L_Upgrade.

Local Arguments client_unread : simpl never.
Local Arguments write_response : simpl never.

Lemma over_over : forall W more rest (h : hprog W) r m o r' m', FSteps more rest h r m o r' m' -> is_over m = true -> is_over m' = true.
Proof. intros W more rest h r m o r' m' H. induction H; intros E; auto; try discriminate. Qed.
(* without a takeover it is a run as before *)
Lemma open_steps : forall W more rest (h : hprog W) r m o r' m', FSteps more rest h r m o r' m' ->
  forall v v', m = Open v -> m' = Open v' -> HSteps more h r v o r' v'.
Proof.
  intros W more rest h r m o r' m' H. induction H; intros v0 v0' E E'; subst; try discriminate.
  - injection E' as <-. apply HS_ret.
  - injection E' as <-. apply HS_crash.
  - injection E as ->. eapply HS_body; [eassumption|]. apply IHFSteps; reflexivity.
  - apply HS_update. apply IHFSteps; reflexivity.
  - apply HS_look. apply IHFSteps; reflexivity.
  - apply over_over in H1; [discriminate|reflexivity].
  - destruct m1 as [v1|]; [|apply over_over in H0; [discriminate|reflexivity]].
    eapply HS_try; [apply IHFSteps1; reflexivity|apply IHFSteps2; reflexivity].
  - destruct m2 as [v2|]; [|apply over_over in H1; [discriminate|reflexivity]].
    destruct m1 as [v1|]; [|apply over_over in H0; [discriminate|reflexivity]].
    eapply HS_recover; [apply IHFSteps1; reflexivity|apply IHFSteps2; reflexivity|apply IHFSteps3; reflexivity].
  - destruct m1 as [v1|]; [|apply over_over in H0; [discriminate|reflexivity]].
    eapply HS_again; [apply IHFSteps1; reflexivity|apply IHFSteps2; reflexivity].
Qed.
(* Tame handlers are Free *)
Lemma tame_free : forall W ok panics (h : hprog W), Tame ok panics h -> forall taken, Free ok panics taken h.
Proof.
  intros W ok panics h H. induction H; intros taken; econstructor; eauto.
Qed.

(* what the network is going to answer *)
Definition events (c : client) : list (bytes * option neterr) :=
  match cl_pending c with [] => cl_net c | p => (p, None) :: cl_net c end.
Lemma events_stream : forall c, net_data (events c) = stream c.
Proof. intros [net p out w]. unfold events, stream. cbn. destruct p; reflexivity. Qed.

Section View.
Variable CS : Type.
Variable cparse : CS -> bytes -> bool -> CS * (bytes * bytes * option cerr).
Variable max : Z.
Variable Inv : body CS -> client -> bytes -> Prop.
Variable End : body CS -> client -> Prop.
Variable more : bytes -> Prop.
Hypothesis step : forall b c left, Inv b c left -> exists d e b' c',
  retrieve cparse max b c = ((d, e), b', c') /\
  bd_full b' = bd_full b /\ bd_pending b' = bd_pending b /\ bd_error b' = bd_error b /\
  ((e = None /\ exists left', left = d ++ left' /\ more left' /\ Inv b' c' left' /\ (csize c' < csize c)%nat) \/
   (e = Some BEof /\ d = left /\ End b' c')).
Hypothesis inv_eof : forall b c left, Inv b c left -> bd_eof b = false.
Hypothesis end_eof : forall b c, End b c -> bd_eof b = true.
Hypothesis inv_full : forall b c left f cap, Inv b c left -> Inv (set_full f cap b) c left.
Hypothesis end_full : forall b c f cap, End b c -> End (set_full f cap b) c.
Hypothesis inv_stash : forall b c left p e, Inv b c left -> Inv (set_stash p e b) c left.
Hypothesis end_stash : forall b c p e, End b c -> End (set_stash p e b) c.
Hypothesis inv_alloc : forall b c left, Inv b c left -> bd_chunked b = true \/ (bd_clen b <= max_alloc)%Z.
Variable rest : bytes.
Hypothesis end_rest : forall b c, End b c -> stream c = rest.

(* after the takeover: the body is at its end, and says so without touching the connection *)
Definition NoInv : body CS -> client -> bytes -> Prop := fun _ _ _ => False.
Definition Idle (c0 : client) : body CS -> client -> Prop := fun b c => bd_eof b = true /\ c = c0.
Lemma idle_answer : forall op b c v, Rep CS NoInv (Idle c) b c v -> exists o b' v',
  body_op cparse max op b c = (o, b', c) /\ Answer more v op o v' /\ Rep CS NoInv (Idle c) b' c v' /\ stops o = None.
Proof.
  intros op b c v HR.
  destruct (answer_ok CS cparse max NoInv (Idle c) more) with (op := op) (b := b) (c := c) (v := v) as (o & b' & c' & v' & H1 & H2 & H3 & H4); auto;
    try (intros ? ? ? []); try (intros ? ? ? ? []); try (intros ? ? ? ? ? []); try (intros b0 c0 []; assumption); try (intros b0 c0 ? ? []; split; assumption).
  assert (E : c' = c).
  { destruct HR as [[[_ []]|(_ & _ & Hb & _)] _ _ _]. clear - H1 Hb. destruct op; cbn [body_op] in H1.
    - unfold body_bytes in H1. rewrite Hb in H1. injection H1 as <- <- <-. reflexivity.
    - unfold retrieve in H1. rewrite Hb in H1. injection H1 as <- <- <-. reflexivity.
    - unfold body_read in H1. destruct (bd_pending b); [destruct (bd_error b)|]; try (injection H1 as <- <- <-; reflexivity).
      unfold retrieve in H1. rewrite Hb in H1. injection H1 as <- <- <-. reflexivity.
    - unfold body_callback, loop_fuel in H1. cbn [callback_loop] in H1. unfold retrieve in H1. rewrite Hb in H1. cbn [app] in H1.
      destruct (cb [[]]); injection H1 as <- <- <-; reflexivity.
    - unfold body_discard, loop_fuel in H1. cbn [discard_loop] in H1. rewrite Hb in H1. injection H1 as <- <- <-. reflexivity. }
  subst c'. exists o, b', v'. auto.
Qed.

(* [out0], [wr0]: the connection when the handler was called *)
Definition Holds (c0 : client) (b : body CS) (c : client) (m : grip) : Prop :=
  writes_ok c /\
  match m with
  | Open v => Rep CS Inv End b c v /\ cl_out c = cl_out c0
  | Over v evs ws => Rep CS NoInv (Idle c) b c v /\ events c = evs /\ cl_out c = cl_out c0 ++ ws
  end.
Lemma kept_writes : forall c c', kept c c' -> writes_ok c -> writes_ok c'.
Proof. intros c c' [_ E] H. unfold writes_ok in *. rewrite E. exact H. Qed.
Lemma idle_moved : forall b c c' v, Rep CS NoInv (Idle c) b c v -> Rep CS NoInv (Idle c') b c' v.
Proof.
  intros b c c' v [H1 H2 H3 H4]. constructor; auto. destruct H1 as [[_ []]|(K1 & K2 & K3 & _)]. right. repeat split; auto.
Qed.

Lemma free_ok : forall W ok panics taken (h : hprog W), Free ok panics taken h -> forall c0 r b c m, Holds c0 b c m ->
  (taken = true -> is_over m = true) -> r_hijacked r = is_over m -> QueryFresh (r_query r) ->
  exists o r' b' c' m', ended CS (run_handler cparse max h r b c) o r' b' c' /\ allowed ok panics o /\
    FSteps more rest h r m o r' m' /\ Holds c0 b' c' m' /\
    (is_over m = true -> is_over m' = true) /\ r_hijacked r' = is_over m' /\ r_upgrade r' = r_upgrade r /\ QueryFresh (r_query r') /\
    (is_over m' = false -> kept c c').
Proof.
  intros W ok panics taken h Ho.
  induction Ho as [ok panics taken resp w Hs|ok taken|ok panics taken op k Hk IH|ok panics taken g k Hg Hk IH|ok panics taken k Hk IH
    |ok panics taken k Hk IH|ok panics k Hk IH|ok panics d k Hk IH|ok mid panics taken p q k Hp IHp Hq IHq Hk IHk]; intros c0 r b c m HM Ht Hj Hq0; cbn [run_handler].
  - exists (Returns resp w), r, b, c, m. split; [reflexivity|]. split; [exact Hs|]. split; [apply FS_ret|]. split; [exact HM|]. repeat split; auto.
  - exists Panics, r, b, c, m. split; [reflexivity|]. split; [reflexivity|]. split; [apply FS_crash|]. split; [exact HM|]. repeat split; auto.
  - destruct m as [v|v evs ws]; destruct HM as [Hw HM].
    + destruct HM as [HR Ho].
      destruct (answer_ok CS cparse max Inv End more step inv_eof end_eof inv_full end_full inv_stash end_stash inv_alloc op b c v HR) as (x & b1 & c1 & v1 & H1 & H2 & H3 & H4).
      pose proof (op_kept _ _ _ _ _ _ _ _ _ H1) as HK.
      destruct (IH x c0 r b1 c1 (Open v1)) as (o & r' & b' & c' & m' & K1 & K2 & K3 & K4 & K5 & K6 & K7 & K8 & K9); auto.
      { split; [eapply kept_writes; eassumption|]. split; [exact H3|]. destruct HK as [-> _]. exact Ho. }
      exists o, r', b', c', m'. rewrite H1, H4. split; [exact K1|]. split; [exact K2|]. split; [eapply FS_body; eassumption|].
      split; [exact K4|]. split; [intros E; discriminate|]. split; [exact K6|]. split; [exact K7|]. split; [exact K8|]. intros E. eapply kept_trans; [exact HK|]. apply K9. exact E.
    + destruct HM as (HR & He & Hc).
      destruct (idle_answer op b c v HR) as (x & b1 & v1 & H1 & H2 & H3 & H4).
      destruct (IH x c0 r b1 c (Over v1 evs ws)) as (o & r' & b' & c' & m' & K1 & K2 & K3 & K4 & K5 & K6 & K7 & K8 & K9); auto.
      { split; [exact Hw|]. split; [exact H3|]. split; assumption. }
      exists o, r', b', c', m'. rewrite H1, H4. split; [exact K1|]. split; [exact K2|]. split; [eapply FS_body_over; eassumption|]. split; [exact K4|]. repeat split; auto.
      all: apply K9; assumption.
  - destruct (Hg r) as (G1 & G2 & G3).
    destruct (IH c0 (g r) b c m HM Ht) as (o & r' & b' & c' & m' & K1 & K2 & K3 & K4 & K5 & K6 & K7 & K8 & K9); [congruence|auto|].
    exists o, r', b', c', m'. split; [exact K1|]. split; [exact K2|]. split; [apply FS_update; exact K3|]. split; [exact K4|]. split; [exact K5|]. split; [exact K6|].
    split; [congruence|]. split; assumption.
  - destruct (IH r c0 r b c m HM Ht Hj Hq0) as (o & r' & b' & c' & m' & K1 & K2 & K3 & K4). exists o, r', b', c', m'.
    split; [exact K1|]. split; [exact K2|]. split; [apply FS_look; exact K3|]. exact K4.
  - destruct m as [v|v evs ws]; destruct HM as [Hw HM].
    + destruct HM as [HR Ho].
      destruct (answer_ok CS cparse max Inv End more step inv_eof end_eof inv_full end_full inv_stash end_stash inv_alloc ODiscard b c v HR) as (x & b1 & c1 & v1 & H1 & H2 & H3 & H4).
      pose proof (op_kept _ _ _ _ _ _ _ _ _ H1) as HK. cbn [body_op] in H1. destruct (body_discard cparse max b c) as [[y b2] c2] eqn:E. injection H1 as <- <- <-.
      assert (Hy : y = Some None) by (inversion H2; reflexivity). subst y.
      assert (Hst : stream c2 = rest /\ Rep CS NoInv (Idle c2) b2 c2 v1).
      { assert (Hend : v_end v1 = true) by (inversion H2; reflexivity). destruct H3 as [[[K _]|(Q1 & Q2 & Q3)] R2 R3 R4]; [congruence|].
        split; [eapply end_rest; exact Q3|]. constructor; auto. right. repeat split; auto. eapply end_eof; exact Q3. }
      destruct Hst as [Hst HR2].
      destruct (IH c0 (set_hijacked true r) b2 c2 (Over v1 (events c2) [])) as (o & r' & b' & c' & m' & K1 & K2 & K3 & K4 & K5 & K6 & K7 & K8 & K9); auto.
      { split; [eapply kept_writes; eassumption|]. split; [exact HR2|]. split; [reflexivity|]. rewrite app_nil_r. destruct HK as [-> _]. exact Ho. }
      specialize (K5 eq_refl).
      exists o, r', b', c', m'. split; [exact K1|]. split; [exact K2|]. split.
      { eapply FS_hijack; [exact H2| |exact K3]. rewrite events_stream. exact Hst. }
      split; [exact K4|]. split; [intros _; exact K5|]. split; [exact K6|]. split; [exact K7|]. split; [exact K8|]. intros X. congruence.
    + destruct HM as (HR & He & Hc).
      destruct (idle_answer ODiscard b c v HR) as (x & b1 & v1 & H1 & H2 & H3 & H4).
      cbn [body_op] in H1. destruct (body_discard cparse max b c) as [[y b2] c2] eqn:E. injection H1 as <- <- ->.
      assert (Hy : y = Some None) by (inversion H2; reflexivity). subst y.
      destruct (IH c0 (set_hijacked true r) b2 c (Over v1 evs ws)) as (o & r' & b' & c' & m' & K1 & K2 & K3 & K4 & K5 & K6 & K7 & K8 & K9); auto.
      { split; [exact Hw|]. split; [exact H3|]. split; assumption. }
      specialize (K5 eq_refl).
      exists o, r', b', c', m'. split; [exact K1|]. split; [exact K2|]. split; [eapply FS_hijack_again; eassumption|].
      split; [exact K4|]. split; [intros _; exact K5|]. split; [exact K6|]. split; [exact K7|]. split; [exact K8|]. intros X. congruence.
  - destruct m as [v|v evs ws]; [discriminate (Ht eq_refl)|]. destruct HM as [Hw (HR & He & Hc)].
    destruct (client_read c) as [x c1] eqn:E. pose proof (read_kept _ _ _ E) as HK.
    assert (X : (exists evs1, evs = x :: evs1 /\ events c1 = evs1) \/ (evs = [] /\ x = ([], Some NOther) /\ events c1 = [])).
    { clear - E He. destruct c as [net pd out wr]. unfold client_read, events in *. cbn in *. destruct pd as [|a pd].
      - destruct net as [|ev net]; injection E as <- <-; [right|left; exists net]; auto.
      - injection E as <- <-. left. exists net. auto. }
    destruct X as [(evs1 & -> & He1)|(-> & -> & He1)].
    + destruct (IH x c0 r b c1 (Over v evs1 ws)) as (o & r' & b' & c' & m' & K1 & K2 & K3 & K4 & K5 & K6 & K7 & K8 & K9); auto.
      { split; [eapply kept_writes; eassumption|]. split; [eapply idle_moved; exact HR|]. split; [exact He1|]. destruct HK as [-> _]. exact Hc. }
      specialize (K5 eq_refl).
      exists o, r', b', c', m'. split; [exact K1|]. split; [exact K2|]. split; [eapply FS_read; eassumption|].
      split; [exact K4|]. split; [intros _; exact K5|]. split; [exact K6|]. split; [exact K7|]. split; [exact K8|]. intros X. congruence.
    + destruct (IH ([], Some NOther) c0 r b c1 (Over v [] ws)) as (o & r' & b' & c' & m' & K1 & K2 & K3 & K4 & K5 & K6 & K7 & K8 & K9); auto.
      { split; [eapply kept_writes; eassumption|]. split; [eapply idle_moved; exact HR|]. split; [exact He1|]. destruct HK as [-> _]. exact Hc. }
      specialize (K5 eq_refl).
      exists o, r', b', c', m'. split; [exact K1|]. split; [exact K2|]. split; [eapply FS_no_read; eassumption|].
      split; [exact K4|]. split; [intros _; exact K5|]. split; [exact K6|]. split; [exact K7|]. split; [exact K8|]. intros X. congruence.
  - destruct m as [v|v evs ws]; [discriminate (Ht eq_refl)|]. destruct HM as [Hw (HR & He & Hc)].
    assert (X : exists c1, client_write c d = (true, c1) /\ writes_ok c1 /\ events c1 = events c /\ cl_out c1 = cl_out c ++ [d]).
    { clear - Hw. destruct c as [net pd out wr]. unfold client_write, writes_ok, events in *. cbn in *. destruct wr as [|a wr].
      - eexists. repeat split. constructor.
      - inversion Hw; subst. eexists. repeat split. assumption. }
    destruct X as (c1 & -> & X1 & X2 & X3).
    destruct (IH true c0 r b c1 (Over v evs (ws ++ [d]))) as (o & r' & b' & c' & m' & K1 & K2 & K3 & K4 & K5 & K6 & K7 & K8 & K9); auto.
    { split; [exact X1|]. split; [eapply idle_moved; exact HR|]. split; [congruence|]. rewrite X3, Hc, app_assoc. reflexivity. }
    specialize (K5 eq_refl).
    exists o, r', b', c', m'. split; [exact K1|]. split; [exact K2|]. split; [eapply FS_write; eassumption|].
    split; [exact K4|]. split; [intros _; exact K5|]. split; [exact K6|]. split; [exact K7|]. split; [exact K8|]. intros X. congruence.
  - destruct (IHp c0 r b c m HM Ht Hj Hq0) as (o1 & r1 & b1 & c1 & m1 & K1 & K2 & K3 & K4 & K5 & K6 & K7 & K8 & K9).
    destruct o1 as [resp w|]; cbn [ended allowed] in K1, K2; rewrite K1.
    + destruct (IHk resp w K2 c0 r1 b1 c1 m1 K4) as (o & r' & b' & c' & m' & L1 & L2 & L3 & L4 & L5 & L6 & L7 & L8 & L9); auto.
      exists o, r', b', c', m'. split; [exact L1|]. split; [exact L2|]. split; [eapply FS_try; eassumption|]. split; [exact L4|].
      split; [auto|]. split; [exact L6|]. split; [congruence|]. split; [exact L8|]. intros X. eapply kept_trans; [apply K9|apply L9; exact X].
      destruct (is_over m1); [rewrite L5 in X; [discriminate|reflexivity]|reflexivity].
    + destruct (IHq c0 r1 b1 c1 m1 K4) as (o2 & r2 & b2 & c2 & m2 & M1 & M2 & M3 & M4 & M5 & M6 & M7 & M8 & M9); auto.
      destruct o2 as [resp w|]; cbn [ended allowed] in M1, M2; rewrite M1.
      * destruct (IHk resp w M2 c0 r2 b2 c2 m2 M4) as (o & r' & b' & c' & m' & L1 & L2 & L3 & L4 & L5 & L6 & L7 & L8 & L9); auto.
        exists o, r', b', c', m'. split; [exact L1|]. split; [exact L2|]. split; [eapply FS_recover; eassumption|]. split; [exact L4|].
        split; [auto|]. split; [exact L6|]. split; [congruence|]. split; [exact L8|]. intros X.
        assert (Y : is_over m2 = false) by (destruct (is_over m2); [rewrite L5 in X; [discriminate|reflexivity]|reflexivity]).
        assert (Z : is_over m1 = false) by (destruct (is_over m1); [rewrite M5 in Y; [discriminate|reflexivity]|reflexivity]).
        eapply kept_trans; [apply K9; exact Z|]. eapply kept_trans; [apply M9; exact Y|apply L9; exact X].
      * exists Panics, r2, b2, c2, m2. split; [reflexivity|]. split; [exact M2|]. split; [eapply FS_again; eassumption|]. split; [exact M4|].
        split; [auto|]. split; [exact M6|]. split; [congruence|]. split; [exact M8|]. intros X.
        eapply kept_trans; [apply K9|apply M9; exact X]. destruct (is_over m1); [rewrite M5 in X; [discriminate|reflexivity]|reflexivity].
Qed.
End View.
