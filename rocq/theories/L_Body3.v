(* Body limits, independence of earlier requests, byte accounting, isolation of requests. *)
From Verif Require Import M_Base M_Status M_Method M_Proto M_KeyValue M_Query M_Request M_Parser M_Client M_Body
  S_Head S_Parser S_Body L_Base L_Head L_Body L_Body2.
Local Arguments client_unread : simpl never.
Local Arguments net_size : simpl never.

(* ---- accounting ---- *)
Lemma consume_ok : forall ks c u ok c', consume ks c = (u, ok, c') ->
  stream c = u ++ (if ok then stream c' else []).
Proof.
  induction ks as [|k ks IH]; intros c u ok c' H; cbn [consume] in H.
  - inversion H; subst. reflexivity.
  - destruct (client_read c) as [[d e] c1] eqn:Er. destruct e as [e|].
    + inversion H; subst. unfold client_read, stream in *. destruct c as [net p out w]. cbn in *.
      destruct p as [|x p]; [|inversion Er]. destruct net as [|[d0 e0] net]; [reflexivity|].
      inversion Er; subst. reflexivity.
    + destruct (consume ks (client_unread c1 (skipn k d))) as [[u1 ok1] c2] eqn:Ec. inversion H; subst.
      apply IH in Ec.
      assert (Hp : cl_pending c1 = [] /\ stream c = d ++ stream c1).
      { unfold client_read, stream in *. destruct c as [net p out w]. cbn in *. destruct p as [|x p].
        - destruct net as [|[d0 e0] net]; inversion Er; subst. auto.
        - inversion Er; subst. auto. }
      destruct Hp as [Hp Hs]. rewrite stream_unread in Ec by assumption.
      rewrite Hs, <- app_assoc, <- Ec, app_assoc, firstn_skipn. reflexivity.
Qed.

(* ---- the size limit ---- *)
Section Limit.
Variable CS : Type.
Variable cparse : CS -> bytes -> bool -> CS * (bytes * bytes * option cerr).
Variable max : Z.
Hypothesis max_pos : (0 <= max)%Z.
Definition budget (b : body CS) : Z :=
  if bd_chunked b then (max - bd_received b)%Z
  else if (bd_left b >? max)%Z then 0%Z else bd_left b.
Definition Sane (b : body CS) : Prop :=
  if bd_chunked b then (0 <= bd_received b <= max)%Z else (0 <= bd_left b)%Z.
Lemma budget_range : forall b, Sane b -> (0 <= budget b <= max)%Z.
Proof.
  intros b H. unfold Sane, budget in *. destruct (bd_chunked b); [lia|].
  rewrite Z.gtb_ltb. destruct (Z.ltb_spec max (bd_left b)); lia.
Qed.
Lemma retrieve_budget : forall b c d e b' c', Sane b -> retrieve cparse max b c = ((d, e), b', c') ->
  Sane b' /\ (len d + budget b' <= budget b)%Z /\ bd_full b' = bd_full b /\ bd_pending b' = bd_pending b /\
  bd_error b' = bd_error b.
Proof.
  intros b c d e b' c' HS H. unfold retrieve in H.
  destruct (bd_eof b). { inversion H; subst. unfold len. cbn. repeat split; auto; lia. }
  unfold Sane, budget in *.
  destruct (bd_chunked b) eqn:Ec.
  - unfold chunked_read in H. destruct (client_read c) as [[data ne] c1]. destruct ne as [ne|].
    { inversion H; subst. destruct ne; cbn; rewrite Ec; unfold len; cbn; repeat split; auto; lia. }
    destruct (cparse (bd_cs b) data (bd_trailer b)) as [cs' [[chunk extra] ce]].
    destruct ((two64 - 1 - bd_received b <? len chunk)%Z || (bd_received b + len chunk >? max)%Z) eqn:El.
    { destruct ce as [[]|]; inversion H; subst; cbn; rewrite Ec; unfold len; cbn; repeat split; auto; lia. }
    apply orb_false_elim in El as [_ El]. rewrite Z.gtb_ltb in El. apply Z.ltb_ge in El.
    pose proof (len_nonneg chunk).
    destruct ce as [[]|]; inversion H; subst; cbn; rewrite Ec; repeat split; auto; try lia.
  - unfold plain_read in H. destruct (bd_left b =? 0)%Z.
    { inversion H; subst. cbn. rewrite Ec. unfold len. cbn. repeat split; auto; lia. }
    destruct (client_read c) as [[data ne] c1]. destruct ne as [ne|].
    { inversion H; subst. destruct ne; cbn; rewrite Ec; unfold len; cbn; repeat split; auto; lia. }
    destruct (bd_left b >? max)%Z eqn:Em.
    { inversion H; subst. cbn. rewrite Ec, Em. unfold len. cbn. repeat split; auto; lia. }
    destruct (len data >=? bd_left b)%Z eqn:Ed; inversion H; subst; cbn; rewrite Ec; rewrite Z.gtb_ltb in Em; apply Z.ltb_ge in Em.
    + rewrite Z.geb_leb in Ed. apply Z.leb_le in Ed.
      assert (Hl : len (firstn (Z.to_nat (bd_left b)) data) = bd_left b).
      { unfold len in *. rewrite firstn_length. lia. }
      rewrite Hl. replace (0 >? max)%Z with false by (symmetry; rewrite Z.gtb_ltb; apply Z.ltb_ge; lia).
      repeat split; auto; lia.
    + rewrite Z.geb_leb in Ed. apply Z.leb_gt in Ed. pose proof (len_nonneg d).
      replace (bd_left b - len d >? max)%Z with false by (symmetry; rewrite Z.gtb_ltb; apply Z.ltb_ge; lia).
      repeat split; auto; lia.
Qed.

Lemma bytes_loop_budget : forall n b c r b' c', Sane b -> bytes_loop cparse max n b c = (r, b', c') ->
  Sane b' /\ (len (bd_full b') + budget b' <= len (bd_full b) + budget b)%Z /\ (budget b' <= budget b)%Z /\
  bd_pending b' = bd_pending b /\ bd_error b' = bd_error b /\
  match r with BROk d => d = bd_full b' | _ => True end.
Proof.
  induction n as [|n IH]; intros b c r b' c' HS H; cbn [bytes_loop] in H.
  - inversion H; subst. repeat split; auto; lia.
  - destruct (retrieve cparse max b c) as [[[d e] b1] c1] eqn:Er.
    destruct (retrieve_budget _ _ _ _ _ _ HS Er) as (HS1 & Hb & Hf & Hp & He).
    set (b2 := set_full (bd_full b1 ++ d) (Z.max (bd_cap b1) (len (bd_full b1 ++ d))) b1) in *.
    assert (HS2 : Sane b2) by exact HS1. assert (Hb2 : budget b2 = budget b1) by reflexivity.
    assert (Hf2 : len (bd_full b2) = (len (bd_full b) + len d)%Z) by (unfold b2; cbn; rewrite Hf, len_app; reflexivity).
    pose proof (len_nonneg d).
    destruct e as [[]|].
    1-4: inversion H; subst r b' c'; repeat split; auto; try lia.
    destruct (IH _ _ _ _ _ HS2 H) as (H1 & H2 & H3 & H4 & H5 & H6).
    repeat split; auto; try lia; unfold b2 in *; cbn in *; congruence.
Qed.

Lemma callback_budget : forall n cb seen b c ps r b' c', Sane b ->
  callback_loop cparse max n cb seen b c = (ps, r, b', c') ->
  Sane b' /\ (len (concat ps) + budget b' <= len (concat seen) + budget b)%Z /\ bd_full b' = bd_full b /\
  bd_pending b' = bd_pending b /\ bd_error b' = bd_error b.
Proof.
  induction n as [|n IH]; intros cb seen b c ps r b' c' HS H; cbn [callback_loop] in H.
  - inversion H; subst. repeat split; auto; lia.
  - destruct (retrieve cparse max b c) as [[[d e] b1] c1] eqn:Er.
    destruct (retrieve_budget _ _ _ _ _ _ HS Er) as (HS1 & Hb & Hf & Hp & He).
    assert (Hc : len (concat (seen ++ [d])) = (len (concat seen) + len d)%Z).
    { rewrite concat_app, len_app. cbn. rewrite app_nil_r. reflexivity. }
    pose proof (len_nonneg d).
    destruct e as [[]|]; try (inversion H; subst; repeat split; auto; lia).
    destruct (cb (seen ++ [d])).
    + destruct (IH _ _ _ _ _ _ _ _ HS1 H) as (H1 & H2 & H3 & H4 & H5). repeat split; auto; try congruence; lia.
    + inversion H; subst. repeat split; auto; lia.
Qed.

Lemma discard_budget : forall n b c r b' c', Sane b -> discard_loop cparse max n b c = (r, b', c') ->
  Sane b' /\ (budget b' <= budget b)%Z /\ bd_full b' = bd_full b /\ bd_pending b' = bd_pending b /\ bd_error b' = bd_error b.
Proof.
  induction n as [|n IH]; intros b c r b' c' HS H; cbn [discard_loop] in H.
  - inversion H; subst. repeat split; auto; lia.
  - destruct (bd_eof b). { inversion H; subst. repeat split; auto; lia. }
    destruct (retrieve cparse max b c) as [[[d e] b1] c1] eqn:Er.
    destruct (retrieve_budget _ _ _ _ _ _ HS Er) as (HS1 & Hb & Hf & Hp & He). pose proof (len_nonneg d).
    destruct e as [[]|]; try (inversion H; subst; repeat split; auto; lia).
    destruct (IH _ _ _ _ _ HS1 H) as (H1 & H2 & H3 & H4 & H5). repeat split; auto; try congruence; lia.
Qed.

Definition small (o : bout) : Prop := match o with RBytes (BROk d) => (len d <= max)%Z | _ => True end.

Lemma op_budget : forall op b c o b' c', Sane b -> (len (bd_full b) <= max)%Z ->
  body_op cparse max op b c = (o, b', c') ->
  Sane b' /\ (len (bd_full b') <= max)%Z /\ small o /\
  (streamed [o] + len (bd_pending b') + budget b' <= len (bd_pending b) + budget b)%Z.
Proof.
  intros op b c o b' c' HS Hfull H. pose proof (budget_range _ HS) as HB. destruct op; cbn [body_op] in H.
  - destruct (body_bytes cparse max b c) as [[r b1] c1] eqn:Eb. inversion H; subst. unfold body_bytes in Eb.
    destruct (bd_eof b). { inversion Eb; subst. cbn. repeat split; auto; lia. }
    match type of Eb with (if ?g then _ else _) = _ => destruct g end.
    { inversion Eb; subst. cbn. repeat split; auto; lia. }
    match type of Eb with bytes_loop _ _ _ ?b0 _ = _ => assert (HS0 : Sane b0) by exact HS end.
    destruct (bytes_loop_budget _ _ _ _ _ _ HS0 Eb) as (H1 & H2 & H3 & H4 & H5 & H6).
    cbn [bd_full set_full bd_pending] in *. rewrite H4.
    match type of H3 with (_ <= budget ?b0)%Z => change (budget b0) with (budget b) in * end.
    pose proof (budget_range _ H1). unfold len in H2 at 2. cbn [List.length] in H2.
    split; [assumption|]. split; [lia|]. split; [|cbn; lia].
    destruct r; cbn; auto. subst d. lia.
  - destruct (retrieve cparse max b c) as [[[d e] b1] c1] eqn:Er.
    destruct (retrieve_budget _ _ _ _ _ _ HS Er) as (HS1 & Hb & Hf & Hp & He). inversion H; subst.
    cbn. rewrite Hf, Hp. repeat split; auto; lia.
  - destruct (body_read cparse max n b c) as [[[d e] b1] c1] eqn:Er. inversion H; subst. unfold body_read in Er.
    assert (Hgen : forall p0 er (bx : body CS), firstn n p0 ++ skipn n p0 = p0 ->
        budget (set_stash (skipn n p0) er bx) = budget bx) by reflexivity.
    assert (Hfs : forall p0 : bytes, (len (firstn n p0) + len (skipn n p0) = len p0)%Z).
    { intros p0. rewrite <- len_app, firstn_skipn. reflexivity. }
    assert (Hkeep : forall er p0, bd_pending b = p0 ->
       (firstn n p0, er, set_stash (skipn n p0) (bd_error b) b, c) = (d, e, b', c') ->
       Sane b' /\ (len (bd_full b') <= max)%Z /\ small (RPiece d e) /\
       (streamed [RPiece d e] + len (bd_pending b') + budget b' <= len (bd_pending b) + budget b)%Z).
    { intros er p0 Hp0 E. inversion E; subst. split; [exact HS|]. split; [exact Hfull|]. split; [exact I|].
      specialize (Hfs (bd_pending b)). cbn.
      change (budget (set_stash (skipn n (bd_pending b)) (bd_error b) b)) with (budget b). lia. }
    destruct (bd_pending b) as [|x p] eqn:Ep; [destruct (bd_error b) as [er|] eqn:Ee|].
    + rewrite Ep, Ee in Er. eapply Hkeep; [reflexivity|]. rewrite <- Er. reflexivity.
    + destruct (retrieve cparse max b c) as [[[d1 e1] b2] c2] eqn:Er1.
      destruct (retrieve_budget _ _ _ _ _ _ HS Er1) as (HS1 & Hb & Hf & Hp & He).
      inversion Er; subst. cbn [set_stash bd_pending bd_error bd_full] in *. split; [exact HS1|]. split; [rewrite Hf; exact Hfull|].
      split; [exact I|]. specialize (Hfs d1). cbn.
      change (budget (set_stash (skipn n d1) e1 (set_stash d1 e1 b2))) with (budget b2).
      replace (len []) with 0%Z by reflexivity. lia.
    + rewrite Ep in Er. eapply Hkeep; [reflexivity|]. rewrite <- Er. reflexivity.
  - destruct (body_callback cparse max cb b c) as [[[ps r] b1] c1] eqn:Er. inversion H; subst. unfold body_callback in Er.
    destruct (callback_budget _ _ _ _ _ _ _ _ _ HS Er) as (H1 & H2 & H3 & H4 & H5). cbn in *. rewrite H3, H4.
    change (len []) with 0%Z in *. repeat split; auto; lia.
  - destruct (body_discard cparse max b c) as [[r b1] c1] eqn:Er. inversion H; subst. unfold body_discard in Er.
    destruct (discard_budget _ _ _ _ _ _ HS Er) as (H1 & H2 & H3 & H4 & H5). cbn. rewrite H3, H4. unfold len at 1. cbn. repeat split; auto; lia.
Qed.

Lemma ops_budget : forall ops b c os b' c', Sane b -> (len (bd_full b) <= max)%Z ->
  body_ops cparse max ops b c = (os, b', c') ->
  Sane b' /\ (len (bd_full b') <= max)%Z /\ Forall small os /\
  (streamed os + len (bd_pending b') + budget b' <= len (bd_pending b) + budget b)%Z.
Proof.
  induction ops as [|op ops IH]; intros b c os b' c' HS Hf H; cbn [body_ops] in H.
  - inversion H; subst. cbn. repeat split; auto; lia.
  - destruct (body_op cparse max op b c) as [[o b1] c1] eqn:Eo.
    destruct (body_ops cparse max ops b1 c1) as [[os1 b2] c2] eqn:Eos. inversion H; subst.
    destruct (op_budget _ _ _ _ _ _ HS Hf Eo) as (H1 & H2 & H3 & H4).
    destruct (IH _ _ _ _ _ H1 H2 Eos) as (H5 & H6 & H7 & H8).
    repeat split; auto. assert (Hsc : streamed (o :: os1) = (streamed [o] + streamed os1)%Z) by (unfold streamed; cbn [fold_right]; lia). rewrite Hsc. lia.
Qed.

Lemma limit_ok : forall ops b r c os b' c', (len (bd_full b) <= max)%Z ->
  body_ops cparse max ops (body_init b r) c = (os, b', c') ->
  (streamed os <= max)%Z /\ Forall small os /\ (len (bd_full b') <= max)%Z.
Proof.
  intros ops b r c os b' c' Hf H.
  assert (HS : Sane (body_init b r)).
  { unfold Sane, body_init. destruct (enc_chunked (r_encoding r)); cbn; [lia|].
    unfold wrap_u64, two64. apply Z.mod_pos_bound. lia. }
  assert (Hf0 : (len (bd_full (body_init b r)) <= max)%Z).
  { unfold body_init. destruct (enc_chunked (r_encoding r)); exact Hf. }
  destruct (ops_budget _ _ _ _ _ _ HS Hf0 H) as (H1 & H2 & H3 & H4).
  pose proof (budget_range _ HS). pose proof (budget_range _ H1). pose proof (len_nonneg (bd_pending b')).
  assert (bd_pending (body_init b r) = []) as Hp by (unfold body_init; destruct (enc_chunked (r_encoding r)); reflexivity).
  rewrite Hp in H4. unfold len in H4 at 2. cbn in H4. repeat split; auto; lia.
Qed.
End Limit.

(* ---- a fixed length above the limit ---- *)
Lemma plain_too_large : forall CS cparse max (b : body CS) r c op, (0 <= max)%Z -> enc_chunked (r_encoding r) = false ->
  (max < r_content_length r <= max_alloc)%Z -> stream c <> [] -> op <> ORead 0 ->
  exists o b' c', body_op cparse max op (body_init b r) c = (o, b', c') /\ out_data o = [] /\
    (o = RBytes (BRErr BTooLarge) \/ o = RPiece [] (Some BTooLarge) \/
     o = RCallback [] (Some (Some BTooLarge)) \/ o = RDiscard (Some (Some BTooLarge))).
Proof.
  intros CS cparse max b r c op Hm Hc Hl Hs Hop.
  destruct (client_read_stream c Hs) as (d & c1 & Hr & _).
  assert (Hw : wrap_u64 (r_content_length r) = r_content_length r).
  { unfold wrap_u64. apply Z.mod_small. unfold max_alloc, two64 in *. lia. }
  assert (Hret : forall (bx : body CS), bd_eof bx = false -> bd_chunked bx = false -> bd_left bx = r_content_length r ->
     retrieve cparse max bx c = (([], Some BTooLarge), bx, c1)).
  { intros bx H1 H2 H3. unfold retrieve, plain_read. rewrite H1, H2, H3.
    replace (r_content_length r =? 0)%Z with false by (symmetry; apply Z.eqb_neq; lia). rewrite Hr.
    replace (r_content_length r >? max)%Z with true by (symmetry; rewrite Z.gtb_ltb; apply Z.ltb_lt; lia). reflexivity. }
  unfold body_init. rewrite Hc, Hw. destruct op; cbn [body_op].
  - unfold body_bytes. cbn [bd_eof bd_chunked bd_cap bd_clen].
    replace (r_content_length r >? max_alloc)%Z with false by (symmetry; rewrite Z.gtb_ltb; apply Z.ltb_ge; lia).
    rewrite andb_false_r. unfold loop_fuel. cbn [bytes_loop]. rewrite Hret by reflexivity. cbn.
    eexists _, _, _. split; [reflexivity|]. auto.
  - rewrite Hret by reflexivity. eexists _, _, _. split; [reflexivity|]. auto.
  - unfold body_read. cbn [bd_pending bd_error]. rewrite Hret by reflexivity. cbn. rewrite firstn_nil, skipn_nil.
    eexists _, _, _. split; [reflexivity|]. auto.
  - unfold body_callback, loop_fuel. cbn [callback_loop]. rewrite Hret by reflexivity.
    eexists _, _, _. split; [reflexivity|]. auto.
  - unfold body_discard, loop_fuel. cbn [discard_loop bd_eof]. rewrite Hret by reflexivity.
    eexists _, _, _. split; [reflexivity|]. auto 6.
Qed.

(* ---- independence of earlier requests ---- *)
Section Independent.
Variable CS : Type.
Variable cparse : CS -> bytes -> bool -> CS * (bytes * bytes * option cerr).
Variable max : Z.
Record Sim (t : bool) (b1 b2 : body CS) : Prop := {
  sm_chunked : bd_chunked b1 = bd_chunked b2;
  sm_clen : bd_clen b1 = bd_clen b2;
  sm_eof : bd_eof b1 = bd_eof b2;
  sm_cs : bd_cs b1 = bd_cs b2;
  sm_pending : bd_pending b1 = bd_pending b2;
  sm_error : bd_error b1 = bd_error b2;
  sm_left : bd_chunked b1 = false -> bd_left b1 = bd_left b2;
  sm_recv : bd_chunked b1 = true -> bd_received b1 = bd_received b2 /\ bd_trailer b1 = bd_trailer b2;
  sm_alloc : bd_chunked b1 = true \/ (bd_clen b1 <= max_alloc)%Z;
  sm_full : t = true -> bd_full b1 = bd_full b2
}.
Ltac sim := repeat split; intros; cbn in *; auto; try congruence; try tauto; try lia.

Lemma sim_retrieve : forall t b1 b2 c, Sim t b1 b2 ->
  exists o b1' b2' c', retrieve cparse max b1 c = (o, b1', c') /\ retrieve cparse max b2 c = (o, b2', c') /\
    Sim t b1' b2' /\ bd_full b1' = bd_full b1 /\ bd_full b2' = bd_full b2.
Proof.
  intros t b1 b2 c [H1 H2 H3 H4 H5 H6 H7 H8 H9 H10]. unfold retrieve. rewrite <- H3, <- H1.
  destruct (bd_eof b1) eqn:Eeof. { eexists _, _, _, _. sim. }
  destruct (bd_chunked b1) eqn:Ec.
  - destruct (H8 eq_refl) as [Hr Ht]. unfold chunked_read. destruct (client_read c) as [[d ne] c1].
    destruct ne as [ne|]. { eexists _, _, _, _. split; [reflexivity|]. split; [reflexivity|]. destruct ne; cbn; sim. }
    rewrite <- H4, <- Ht, <- Hr. destruct (cparse (bd_cs b1) d (bd_trailer b1)) as [s [[ch ex] ce]].
    destruct ce as [[]|].
    2:{ eexists _, _, _, _. sim. }
    all: destruct (_ || _); eexists _, _, _, _; sim.
  - specialize (H7 eq_refl). unfold plain_read. rewrite <- H7. destruct (bd_left b1 =? 0)%Z.
    { eexists _, _, _, _. sim. }
    destruct (client_read c) as [[d ne] c1]. destruct ne as [ne|]. { eexists _, _, _, _. split; [reflexivity|]. split; [reflexivity|]. destruct ne; cbn; sim. }
    destruct (bd_left b1 >? max)%Z. { eexists _, _, _, _. sim. }
    destruct (len d >=? bd_left b1)%Z; eexists _, _, _, _; sim.
Qed.

Lemma sim_weak : forall t b1 b2, Sim t b1 b2 -> Sim false b1 b2.
Proof. intros t b1 b2 []. constructor; auto. discriminate. Qed.

Lemma sim_full : forall b1 b2 f cap1 cap2 t, Sim t b1 b2 -> Sim true (set_full f cap1 b1) (set_full f cap2 b2).
Proof. intros b1 b2 f cap1 cap2 t []. constructor; auto. Qed.
Lemma sim_stash : forall t b1 b2 p e, Sim t b1 b2 -> Sim t (set_stash p e b1) (set_stash p e b2).
Proof. intros t b1 b2 p e []. constructor; auto. Qed.

Lemma sim_bytes_loop : forall n b1 b2 c, Sim true b1 b2 ->
  exists r b1' b2' c', bytes_loop cparse max n b1 c = (r, b1', c') /\ bytes_loop cparse max n b2 c = (r, b2', c') /\
    Sim true b1' b2'.
Proof.
  induction n as [|n IH]; intros b1 b2 c HS; cbn [bytes_loop].
  - eexists _, _, _, _. eauto.
  - destruct (sim_retrieve _ _ _ c HS) as (o & b1' & b2' & c' & H1 & H2 & HS' & Hf1 & Hf2). rewrite H1, H2.
    destruct o as [d e]. pose proof (sm_full _ _ _ HS' eq_refl) as Hfull. rewrite <- Hfull.
    destruct e as [[]|]; try apply IH; try (eexists _, _, _, _; split; [reflexivity|]; split; [reflexivity|]); eauto using sim_full.
Qed.

Lemma sim_callback : forall t n cb seen b1 b2 c, Sim t b1 b2 ->
  exists ps r b1' b2' c', callback_loop cparse max n cb seen b1 c = (ps, r, b1', c') /\
    callback_loop cparse max n cb seen b2 c = (ps, r, b2', c') /\ Sim t b1' b2'.
Proof.
  intros t. induction n as [|n IH]; intros cb seen b1 b2 c HS; cbn [callback_loop].
  - eexists _, _, _, _, _. eauto.
  - destruct (sim_retrieve _ _ _ c HS) as (o & b1' & b2' & c' & H1 & H2 & HS' & _). rewrite H1, H2.
    destruct o as [d e]. destruct e as [[]|]; try (eexists _, _, _, _, _; eauto; fail).
    destruct (cb (seen ++ [d])); [apply IH; assumption|]. eexists _, _, _, _, _. eauto.
Qed.

Lemma sim_discard : forall t n b1 b2 c, Sim t b1 b2 ->
  exists r b1' b2' c', discard_loop cparse max n b1 c = (r, b1', c') /\
    discard_loop cparse max n b2 c = (r, b2', c') /\ Sim t b1' b2'.
Proof.
  intros t. induction n as [|n IH]; intros b1 b2 c HS; cbn [discard_loop].
  - eexists _, _, _, _. eauto.
  - rewrite <- (sm_eof _ _ _ HS). destruct (bd_eof b1). { eexists _, _, _, _. eauto. }
    destruct (sim_retrieve _ _ _ c HS) as (o & b1' & b2' & c' & H1 & H2 & HS' & _). rewrite H1, H2.
    destruct o as [d e]. destruct e as [[]|]; try (eexists _, _, _, _; eauto; fail). apply IH. assumption.
Qed.

Lemma sim_op : forall op t b1 b2 c, Sim t b1 b2 -> (op = OBytes -> t = true \/ bd_eof b1 = false) ->
  exists o b1' b2' c', body_op cparse max op b1 c = (o, b1', c') /\ body_op cparse max op b2 c = (o, b2', c') /\
    Sim (t || is_bytes op) b1' b2'.
Proof.
  intros op t b1 b2 c HS Hb. destruct op; cbn [body_op is_bytes]; rewrite ?orb_false_r, ?orb_true_r.
  - specialize (Hb eq_refl). unfold body_bytes. rewrite <- (sm_eof _ _ _ HS). destruct (bd_eof b1) eqn:Ee.
    + destruct Hb as [->|Hb]; [|discriminate]. rewrite <- (sm_full _ _ _ HS eq_refl).
      eexists _, _, _, _. split; [reflexivity|]. split; [reflexivity|]. assumption.
    + rewrite <- (sm_chunked _ _ _ HS), <- (sm_clen _ _ _ HS).
      assert (Hg : forall g, negb (bd_chunked b1) && g && (bd_clen b1 >? max_alloc)%Z = false).
      { intros g. destruct (sm_alloc _ _ _ HS) as [-> | Hl]; [reflexivity|].
        replace (bd_clen b1 >? max_alloc)%Z with false by (symmetry; rewrite Z.gtb_ltb; apply Z.ltb_ge; lia).
        apply andb_false_r. }
      rewrite !Hg.
      match goal with |- context [bytes_loop _ _ (loop_fuel c) (set_full [] ?k1 b1) c] =>
        match goal with |- context [bytes_loop _ _ (loop_fuel c) (set_full [] ?k2 b2) c] =>
          destruct (sim_bytes_loop (loop_fuel c) _ _ c (sim_full _ _ [] k1 k2 _ HS)) as (r & b1' & b2' & c' & H1 & H2 & HS') end end.
      rewrite H1, H2. eexists _, _, _, _. split; [reflexivity|]. split; [reflexivity|]. assumption.
  - destruct (sim_retrieve _ _ _ c HS) as ([d e] & b1' & b2' & c' & H1 & H2 & HS' & _). rewrite H1, H2.
    eexists _, _, _, _. eauto.
  - unfold body_read. rewrite <- (sm_pending _ _ _ HS), <- (sm_error _ _ _ HS).
    destruct (sim_retrieve _ _ _ c HS) as ([d e] & b1' & b2' & c' & H1 & H2 & HS' & _).
    destruct (bd_pending b1) as [|x p] eqn:Ep; [destruct (bd_error b1) as [er|] eqn:Ee|].
    + rewrite Ep, <- (sm_pending _ _ _ HS), Ep, <- (sm_error _ _ _ HS).
      eexists _, _, _, _. split; [reflexivity|]. split; [reflexivity|]. apply sim_stash. assumption.
    + rewrite H1, H2. cbn [set_stash bd_pending bd_error].
      eexists _, _, _, _. split; [reflexivity|]. split; [reflexivity|]. apply sim_stash, sim_stash. assumption.
    + rewrite Ep, <- (sm_pending _ _ _ HS), Ep, <- (sm_error _ _ _ HS).
      eexists _, _, _, _. split; [reflexivity|]. split; [reflexivity|]. apply sim_stash. assumption.
  - unfold body_callback. destruct (sim_callback _ (loop_fuel c) cb [] _ _ c HS) as (ps & r & b1' & b2' & c' & H1 & H2 & HS').
    rewrite H1, H2. eexists _, _, _, _. eauto.
  - unfold body_discard. destruct (sim_discard _ (loop_fuel c) _ _ c HS) as (r & b1' & b2' & c' & H1 & H2 & HS').
    rewrite H1, H2. eexists _, _, _, _. eauto.
Qed.

Lemma sim_ops : forall ops t b1 b2 c, Sim t b1 b2 -> NoStaleBytes cparse max t ops b1 c ->
  exists os b1' b2' c', body_ops cparse max ops b1 c = (os, b1', c') /\ body_ops cparse max ops b2 c = (os, b2', c').
Proof.
  induction ops as [|op ops IH]; intros t b1 b2 c HS HN; cbn [body_ops NoStaleBytes] in *.
  - eexists _, _, _, _. eauto.
  - destruct HN as [Hop HN].
    destruct (sim_op op t b1 b2 c HS Hop) as (o & b1' & b2' & c' & H1 & H2 & HS'). rewrite H1, H2 in *.
    destruct (IH _ _ _ _ HS' HN) as (os & b1'' & b2'' & c'' & H3 & H4). rewrite H3, H4.
    eexists _, _, _, _. eauto.
Qed.

Lemma init_sim : forall b1 b2 r, bd_cs b1 = bd_cs b2 ->
  enc_chunked (r_encoding r) = true \/ (r_content_length r <= max_alloc)%Z ->
  Sim false (body_init b1 r) (body_init b2 r).
Proof.
  intros b1 b2 r Hcs Ha. unfold body_init. destruct (enc_chunked (r_encoding r)); constructor; cbn; auto; try discriminate.
Qed.

Lemma independent : forall ops b1 b2 r c, bd_cs b1 = bd_cs b2 ->
  enc_chunked (r_encoding r) = true \/ (r_content_length r <= max_alloc)%Z ->
  NoStaleBytes cparse max false ops (body_init b1 r) c ->
  exists os b1' b2' c', body_ops cparse max ops (body_init b1 r) c = (os, b1', c') /\
    body_ops cparse max ops (body_init b2 r) c = (os, b2', c').
Proof. intros. eapply sim_ops; [apply init_sim|]; eauto. Qed.

(* which handlers are fine *)
Lemma asked_fine : forall ops b c, NoStaleBytes cparse max true ops b c.
Proof.
  induction ops as [|op ops IH]; intros b c; cbn; [exact I|]. split; [auto|].
  destruct (body_op cparse max op b c) as [[o b1] c1]. apply IH.
Qed.
Lemma bytes_first_fine : forall ops b r c, NoStaleBytes cparse max false (OBytes :: ops) (body_init b r) c.
Proof.
  intros ops b r c. cbn [NoStaleBytes]. split.
  - intros _. right. unfold body_init. destruct (enc_chunked (r_encoding r)); reflexivity.
  - destruct (body_op cparse max OBytes (body_init b r) c) as [[o b1] c1]. apply asked_fine.
Qed.
Lemma no_bytes_fine : forall ops t b c, Forall (fun op => op <> OBytes) ops -> NoStaleBytes cparse max t ops b c.
Proof.
  induction ops as [|op ops IH]; intros t b c H; cbn; [exact I|]. inversion H; subst. split; [congruence|].
  destruct (body_op cparse max op b c) as [[o b1] c1]. apply IH. assumption.
Qed.
End Independent.

(* ---- isolation of requests ---- *)
Lemma query_fresh_set : forall q raw, QueryFresh q ->
  q_parsed (query_set q raw) = false /\ kv_pairs (q_params (query_set q raw)) = [] /\ q_raw (query_set q raw) = raw.
Proof. intros q raw H. unfold query_set. destruct (q_parsed q) eqn:E; cbn; auto. Qed.

Lemma view_result : forall cfg umax kmax vmax ra rb h, QueryFresh (r_query ra) -> QueryFresh (r_query rb) ->
  wf_head h -> fits (cfg_limits cfg umax kmax vmax) h ->
  SameView (head_result cfg (request_clear ra) h) (head_result cfg (request_clear rb) h).
Proof.
  intros cfg umax kmax vmax ra rb h Qa Qb Hwf Hfit.
  destruct Hwf as (Hm & Hp & Hpath & Hq & Hlf & Hdec & Hquery & Hlines & Hcl).
  destruct Hfit as (F1 & F2 & F3 & F4 & F5 & F6).
  unfold head_result. rewrite !lines_means by assumption.
  destruct (query_fresh_set _ [] Qa) as (A1 & A2 & A3). destruct (query_fresh_set _ [] Qb) as (B1 & B2 & B3).
  assert (Qa' : QueryFresh (query_set (r_query ra) [])) by (intro; assumption).
  assert (Qb' : QueryFresh (query_set (r_query rb) [])) by (intro; assumption).
  unfold line_effect. destruct (h_query h) as [q|] eqn:Eq.
  - destruct (query_fresh_set _ q Qa') as (A4 & A5 & A6). destruct (query_fresh_set _ q Qb') as (B4 & B5 & B6).
    constructor; cbn; try reflexivity; congruence.
  - constructor; cbn; try reflexivity; congruence.
Qed.

Lemma new_is_cleared : forall cfg h, 
  head_result cfg (request_clear new_request) h = head_result cfg new_request h.
Proof. intros. reflexivity. Qed.

Lemma isolated : forall cfg umax kmax vmax p r h reads tail,
  Ready umax kmax vmax p -> p_req p = request_clear r -> QueryFresh (r_query r) ->
  wf_head h -> fits (cfg_limits cfg umax kmax vmax) h -> concat reads = render_head h ++ tail ->
  exists p' e rs q' e2 rs2,
    feed cfg p reads = (RDone p' e, rs) /\
    feed cfg (new_parser umax kmax vmax new_request) reads = (RDone q' e2, rs2) /\
    SameView (p_req p') (p_req q') /\ QueryFresh (r_query (p_req p')).
Proof.
  intros cfg umax kmax vmax p r h reads tail HR Hreq HQ Hwf Hfit Hc.
  destruct (segmentation _ _ _ _ _ _ _ _ HR Hwf Hfit Hc) as (p' & e & rs & H1 & _ & _ & _ & H2).
  assert (HR2 : Ready umax kmax vmax (new_parser umax kmax vmax new_request)) by (repeat split).
  destruct (segmentation _ _ _ _ _ _ _ _ HR2 Hwf Hfit Hc) as (q' & e2 & rs2 & H3 & _ & _ & _ & H4).
  exists p', e, rs, q', e2, rs2. split; [assumption|]. split; [assumption|]. split.
  - rewrite H2, H4, Hreq. cbn [p_req new_parser]. rewrite <- new_is_cleared.
    eapply view_result; eauto. intro; reflexivity.
  - rewrite H2, Hreq. pose proof (view_result cfg umax kmax vmax r new_request h HQ (fun _ => eq_refl) Hwf Hfit) as HV.
    intros _. rewrite (sv_query _ _ HV). rewrite new_is_cleared.
    destruct Hwf as (_ & _ & _ & _ & _ & _ & _ & Hlines & _). destruct Hfit as (_ & _ & _ & _ & _ & F6).
    unfold head_result. rewrite lines_means by assumption. unfold line_effect. destruct (h_query h); reflexivity.
Qed.
Lemma fresh_kept : forall q raw, QueryFresh q ->
  QueryFresh (query_set q raw) /\ QueryFresh (fst (query_do_parse q)).
Proof.
  intros q raw H. split.
  - intros _. apply (query_fresh_set q raw H).
  - unfold query_do_parse. destruct (q_parsed q) eqn:E; [exact H|].
    destruct (query_parse (q_raw q)). intro Hf. discriminate.
Qed.

(* ---- streams that end too early ---- *)
Section Broken.
Variable CS : Type.
Variable cparse : CS -> bytes -> bool -> CS * (bytes * bytes * option cerr).
Variable max : Z.
Lemma broken_loop : forall net n p out w later ev (b : body CS), bd_eof b = false -> bd_chunked b = false ->
  (bd_left b <= max)%Z -> Forall (fun x => snd x = None) net ->
  (len p + len (net_data net) < bd_left b)%Z ->
  (List.length p + net_size net <= n)%nat ->
  exists b' c', bytes_loop cparse max (S n) b (Client (net ++ (ev, Some NOther) :: later) p out w) = (BRErr BNet, b', c').
Proof.
  induction net as [|[d e] net IH]; intros n p out w later ev b He Hc Hm Hall Hl Hn.
  - cbn [bytes_loop]. unfold retrieve, plain_read. rewrite He, Hc. pose proof (len_nonneg p).
    change (len (net_data [])) with 0%Z in Hl.
    replace (bd_left b =? 0)%Z with false by (symmetry; apply Z.eqb_neq; lia).
    destruct p as [|x p].
    + cbn. eexists _, _. reflexivity.
    + cbn [client_read cl_pending cl_net app cl_out cl_wres].
      replace (bd_left b >? max)%Z with false by (symmetry; rewrite Z.gtb_ltb; apply Z.ltb_ge; lia).
      replace (len (x :: p) >=? bd_left b)%Z with false by (symmetry; rewrite Z.geb_leb; apply Z.leb_gt; lia).
      cbn [snd berr_eof]. destruct n as [|n]; [cbn in Hn; lia|]. cbn [bytes_loop]. unfold retrieve, plain_read. cbn [set_full set_left bd_eof bd_chunked bd_left]. rewrite He, Hc.
      replace (bd_left b - len (x :: p) =? 0)%Z with false by (symmetry; apply Z.eqb_neq; lia).
      cbn. eexists _, _. reflexivity.
  - inversion Hall as [|? ? Hd Hall']; subst. cbn in Hd. subst e. cbn [net_data] in Hl. rewrite len_app in Hl.
    pose proof (len_nonneg p). pose proof (len_nonneg d). pose proof (len_nonneg (net_data net)).
    assert (Hstep : forall m (b0 : body CS), bd_eof b0 = false -> bd_chunked b0 = false -> (bd_left b0 <= max)%Z ->
        (len d + len (net_data net) < bd_left b0)%Z -> (net_size ((d, None) :: net) <= m)%nat ->
        exists b' c', bytes_loop cparse max (S m) b0 (Client (((d, None) :: net) ++ (ev, Some NOther) :: later) [] out w) = (BRErr BNet, b', c')).
    { intros m b0 He0 Hc0 Hm0 Hl0 Hn0. cbn [bytes_loop]. unfold retrieve, plain_read. rewrite He0, Hc0.
      replace (bd_left b0 =? 0)%Z with false by (symmetry; apply Z.eqb_neq; lia).
      cbn [client_read cl_pending cl_net app cl_out cl_wres].
      replace (bd_left b0 >? max)%Z with false by (symmetry; rewrite Z.gtb_ltb; apply Z.ltb_ge; lia).
      replace (len d >=? bd_left b0)%Z with false by (symmetry; rewrite Z.geb_leb; apply Z.leb_gt; lia).
      cbn [snd berr_eof]. change (net_size ((d, None) :: net)) with (S (List.length d + net_size net)) in Hn0.
      destruct m as [|m]; [lia|].
      apply (IH m [] out w later ev); auto; cbn [bd_left set_full set_left]; cbn [List.length]; change (len []) with 0%Z; lia. }
    change (net_size ((d, None) :: net)) with (S (List.length d + net_size net)) in Hn.
    destruct p as [|x p].
    + change (len []) with 0%Z in Hl. apply Hstep; auto; lia.
    + cbn [bytes_loop]. unfold retrieve, plain_read. rewrite He, Hc.
      replace (bd_left b =? 0)%Z with false by (symmetry; apply Z.eqb_neq; lia).
      cbn [client_read cl_pending cl_net app cl_out cl_wres].
      replace (bd_left b >? max)%Z with false by (symmetry; rewrite Z.gtb_ltb; apply Z.ltb_ge; lia).
      replace (len (x :: p) >=? bd_left b)%Z with false by (symmetry; rewrite Z.geb_leb; apply Z.leb_gt; lia).
      cbn [snd berr_eof]. cbn [List.length] in Hn. destruct n as [|n]; [lia|].
      apply Hstep; auto; cbn [bd_left set_full set_left]; try lia.
      change (net_size ((d, None) :: net)) with (S (List.length d + net_size net)). lia.
Qed.
End Broken.
