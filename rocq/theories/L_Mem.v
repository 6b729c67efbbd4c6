From Verif Require Import M_Base M_Status M_Proto M_KeyValue M_Query M_Request M_Client M_Body M_Mem S_Body S_Mem L_Base L_Body L_Body3.

Local Arguments net_size : simpl never.

Definition Fit (m : bytes) (s : slice) : Prop := (sl_off s + sl_len s <= List.length m)%nat.
Lemma get_length : forall m s, Fit m s -> List.length (sl_get m s) = sl_len s.
Proof. intros m [o l] H. unfold Fit, sl_get in *. cbn in *. rewrite firstn_length, skipn_length. lia. Qed.
Lemma get_nil : forall m s, sl_len s = 0%nat -> sl_get m s = [].
Proof. intros m [o l] H. unfold sl_get. cbn in *. subst. reflexivity. Qed.
Lemma skipn_twice : forall (m : bytes) a b, skipn a (skipn b m) = skipn (b + a) m.
Proof. induction m as [|x m IH]; intros a b; [rewrite !skipn_nil; reflexivity|]. destruct b; [reflexivity|]. cbn. apply IH. Qed.
Lemma get_from : forall m n s, sl_get m (sl_from n s) = skipn n (sl_get m s).
Proof. intros m n [o l]. unfold sl_get, sl_from. cbn. rewrite skipn_firstn_comm, skipn_twice. reflexivity. Qed.
Lemma get_upto : forall m n s, (n <= sl_len s)%nat -> sl_get m (sl_upto n s) = firstn n (sl_get m s).
Proof. intros m n [o l] H. unfold sl_get, sl_upto. cbn in *. rewrite firstn_firstn. f_equal. lia. Qed.
Lemma get_sub : forall m s t, (sl_off t + sl_len t <= sl_len s)%nat -> sl_get m (sl_sub s t) = sl_get (sl_get m s) t.
Proof.
  intros m [o l] [o2 l2] H. unfold sl_get, sl_sub. cbn in *. rewrite skipn_firstn_comm, firstn_firstn, skipn_twice.
  f_equal. lia.
Qed.
Lemma fit_from : forall m n s, Fit m s -> (n <= sl_len s)%nat -> Fit m (sl_from n s).
Proof. intros m n [o l] H. unfold Fit, sl_from in *. cbn in *. lia. Qed.
Lemma get_front : forall d m, sl_get (d ++ m) (Sl 0 (List.length d)) = d.
Proof. intros d m. unfold sl_get. cbn. rewrite firstn_app, firstn_all, Nat.sub_diag. cbn. apply app_nil_r. Qed.

Lemma over_length : forall (d m : bytes), (List.length d <= List.length m)%nat -> List.length (d ++ skipn (List.length d) m) = List.length m.
Proof. intros d m H. rewrite app_length, skipn_length. lia. Qed.

Lemma read_shown : forall c m d e c1, Shown c m -> client_read c = ((d, e), c1) ->
  exists s m1, mc_read m = ((s, e), m1) /\ sl_get (mc_mem m1) s = d /\ Fit (mc_mem m1) s /\ Shown c1 m1 /\
    List.length (mc_mem m1) = List.length (mc_mem m).
Proof.
  intros [net p out w] [mnet mem pend mo mw] d e c1 [Hn Hr Hp Hi Ho Hw] H. unfold client_read, mc_read in *. cbn [cl_net cl_pending cl_out cl_wres mc_net mc_mem mc_pending mc_out mc_wres] in *.
  subst mnet. pose proof (get_length mem pend Hi) as HL.
  destruct p as [|x p].
  - rewrite <- Hp in HL. cbn in HL. replace (Nat.ltb 0 (sl_len pend)) with false by (symmetry; apply Nat.ltb_ge; lia).
    destruct net as [|[d0 e0] net].
    + injection H as <- <- <-. eexists _, _. split; [reflexivity|]. split; [reflexivity|]. split; [unfold Fit; cbn; lia|]. split; [|reflexivity].
      constructor; auto.
    + injection H as <- <- <-. inversion Hr as [|? ? Hd Hr']; subst. cbn [fst] in Hd. eexists _, _. split; [reflexivity|]. cbn [mc_mem].
      split; [apply get_front|]. split; [unfold Fit; cbn; rewrite app_length; lia|].
      split; [|apply over_length; assumption].
      constructor; cbn [cl_net cl_pending mc_net mc_mem mc_pending]; auto.
      * rewrite over_length by assumption. assumption.
      * symmetry. apply get_nil. lia.
      * rewrite over_length by assumption. assumption.
  - rewrite <- Hp in HL. cbn in HL. replace (Nat.ltb 0 (sl_len pend)) with true by (symmetry; apply Nat.ltb_lt; lia).
    injection H as <- <- <-. eexists _, _. split; [reflexivity|]. cbn [mc_mem]. split; [auto|]. split; [assumption|]. split; [|reflexivity].
    constructor; cbn [cl_net cl_pending mc_net mc_mem mc_pending]; auto. cbn. lia.
Qed.
Lemma unread_shown : forall c m d s, Shown c m -> sl_get (mc_mem m) s = d -> Fit (mc_mem m) s -> Shown (client_unread c d) (mc_unread m s).
Proof. intros [net p out w] [mnet mem pend mo mw] d s [Hn Hr Hp Hi Ho Hw] <- Hf. constructor; auto. Qed.

Lemma consume_shown : forall ks c m u ok c', Shown c m -> consume ks c = (u, ok, c') ->
  exists m', m_consume ks m = (u, ok, m') /\ Shown c' m'.
Proof.
  induction ks as [|k ks IH]; intros c m u ok c' HS H; cbn [consume] in H; cbn [m_consume].
  - injection H as <- <- <-. eauto.
  - destruct (client_read c) as ((d, e), c1) eqn:E. destruct (read_shown c m d e c1 HS E) as (s & m1 & -> & Hg & Hf & HS1 & _).
    destruct e; [injection H as <- <- <-; eauto|].
    destruct (consume ks (client_unread c1 (skipn k d))) as ((u2, ok2), c2) eqn:E2. injection H as <- <- <-.
    pose proof (get_length _ _ Hf) as HL. rewrite Hg in *.
    assert (Hk : skipn (List.length (firstn k d)) d = skipn k d).
    { rewrite firstn_length. destruct (Nat.le_ge_cases k (List.length d)); [rewrite Nat.min_l by assumption; reflexivity|].
      rewrite Nat.min_r by assumption. rewrite !skipn_all2 by lia. reflexivity. }
    destruct (IH _ (mc_unread m1 (sl_from (List.length (firstn k d)) s)) _ _ _ (unread_shown c1 m1 (skipn k d) _ HS1
       ltac:(rewrite get_from, Hg; exact Hk) ltac:(apply fit_from; [assumption|rewrite firstn_length; lia])) E2) as (m' & E3 & HS2).
    rewrite E3. eauto.
Qed.

Section Mem.
Variable CS : Type.
Variable mparse : CS -> bytes -> bool -> CS * (slice * nat * option cerr).
Hypothesis within : Within mparse.
Variable max : Z.
Notation cparse := (by_value mparse).

Lemma len_get : forall m s, Fit m s -> len (sl_get m s) = Z.of_nat (sl_len s).
Proof. intros. unfold len. rewrite get_length by assumption. reflexivity. Qed.

Lemma retrieve_shown : forall (b : body CS) c m d e b1 c1, Shown c m -> retrieve cparse max b c = ((d, e), b1, c1) ->
  exists s m1, m_retrieve mparse max b m = ((s, e), b1, m1) /\ sl_get (mc_mem m1) s = d /\ Fit (mc_mem m1) s /\ Shown c1 m1 /\
    List.length (mc_mem m1) = List.length (mc_mem m).
Proof.
  intros b c m d e b1 c1 HS H. unfold retrieve in H. unfold m_retrieve.
  assert (Hnil : forall mm, Fit mm sl_nil) by (intros mm; unfold Fit; cbn; lia).
  destruct (bd_eof b); [injection H as <- <- <- <-; eexists _, _; repeat (split; [reflexivity || apply Hnil|]); auto|].
  destruct (bd_chunked b).
  - unfold chunked_read in H. unfold m_chunked_read. destruct (client_read c) as ((data, ne), c2) eqn:E.
    destruct (read_shown c m data ne c2 HS E) as (s & m1 & -> & Hg & Hf & HS1 & HL).
    destruct ne as [ne|].
    { cbn [snd berr_eof] in H. injection H as <- <- <- <-. eexists _, _. split; [reflexivity|]. split; [reflexivity|]. auto. }
    rewrite Hg. unfold by_value in H. destruct (mparse (bd_cs b) data (bd_trailer b)) as (cs', ((chunk, extra), ce)) eqn:Ep.
    destruct (within _ _ _ _ _ _ _ Ep) as [W1 W2]. pose proof (get_length _ _ Hf) as HG. rewrite Hg in HG.
    assert (HLc : len (sl_get data chunk) = Z.of_nat (sl_len chunk)) by (apply len_get; exact W1). rewrite HLc in H.
    assert (HU : Shown (client_unread c2 (skipn extra data)) (mc_unread m1 (sl_from extra s))).
    { apply unread_shown; [assumption|rewrite get_from, Hg; reflexivity|apply fit_from; [assumption|lia]]. }
    assert (HC : sl_get (mc_mem m1) (sl_sub s chunk) = sl_get data chunk) by (rewrite get_sub by lia; rewrite Hg; reflexivity).
    assert (HF : Fit (mc_mem m1) (sl_sub s chunk)) by (unfold Fit, sl_sub in *; cbn; lia).
    destruct ce as [[|]|].
    + destruct ((two64 - 1 - bd_received b <? Z.of_nat (sl_len chunk))%Z || (bd_received b + Z.of_nat (sl_len chunk) >? max)%Z);
        cbn [snd berr_eof] in *; injection H as <- <- <- <-; eexists _, _; (split; [reflexivity|]); cbn [mc_mem mc_unread]; auto.
    + cbn [snd berr_eof] in *. injection H as <- <- <- <-. eexists _, _. split; [reflexivity|]. auto.
    + destruct ((two64 - 1 - bd_received b <? Z.of_nat (sl_len chunk))%Z || (bd_received b + Z.of_nat (sl_len chunk) >? max)%Z);
        cbn [snd berr_eof] in *; injection H as <- <- <- <-; eexists _, _; (split; [reflexivity|]); cbn [mc_mem mc_unread]; auto.
  - unfold plain_read in H. unfold m_plain_read. destruct (bd_left b =? 0)%Z.
    { cbn [snd berr_eof] in *. injection H as <- <- <- <-. eexists _, _. split; [reflexivity|]. auto. }
    destruct (client_read c) as ((data, ne), c2) eqn:E.
    destruct (read_shown c m data ne c2 HS E) as (s & m1 & -> & Hg & Hf & HS1 & HL).
    destruct ne as [ne|].
    { cbn [snd berr_eof] in H. injection H as <- <- <- <-. eexists _, _. split; [reflexivity|]. auto. }
    destruct (bd_left b >? max)%Z; [cbn [snd berr_eof] in *; injection H as <- <- <- <-; eexists _, _; (split; [reflexivity|]); auto|].
    assert (HLd : len data = Z.of_nat (sl_len s)) by (rewrite <- Hg; apply len_get; exact Hf). rewrite HLd in H.
    destruct (Z.of_nat (sl_len s) >=? bd_left b)%Z eqn:Ec; cbn [snd berr_eof] in *; injection H as <- <- <- <-; eexists _, _; (split; [reflexivity|]); cbn [mc_mem mc_unread]; auto.
    rewrite Z.geb_leb in Ec. apply Z.leb_le in Ec. assert (Hn : (Z.to_nat (bd_left b) <= sl_len s)%nat) by lia.
    split; [rewrite get_upto by assumption; rewrite Hg; reflexivity|]. split; [unfold Fit, sl_upto in *; cbn; lia|]. split; [|assumption].
    apply unread_shown; [assumption|rewrite get_from, Hg; reflexivity|apply fit_from; assumption].
Qed.

Lemma retrieve_stash : forall (b : body CS) c p e, retrieve cparse max (set_stash p e b) c =
  (let '(x, b1, c1) := retrieve cparse max b c in (x, set_stash p e b1, c1)).
Proof.
  intros b c p e. unfold retrieve. cbn [bd_eof bd_chunked set_stash]. destruct (bd_eof b); [reflexivity|]. destruct (bd_chunked b).
  - unfold chunked_read. cbn [bd_cs bd_trailer bd_received set_stash]. destruct (client_read c) as ((data, [ne|]), c2); [destruct ne; reflexivity|].
    destruct (by_value mparse (bd_cs b) data (bd_trailer b)) as (cs', ((chunk, extra), ce)).
    destruct ce as [[|]|]; try reflexivity; destruct ((two64 - 1 - bd_received b <? len chunk)%Z || (bd_received b + len chunk >? max)%Z); reflexivity.
  - unfold plain_read. cbn [bd_left set_stash]. destruct (bd_left b =? 0)%Z; [reflexivity|].
    destruct (client_read c) as ((data, [ne|]), c2); [destruct ne; reflexivity|]. destruct (bd_left b >? max)%Z; [reflexivity|].
    destruct (len data >=? bd_left b)%Z; reflexivity.
Qed.
(* the stash plays no role but for Read *)
Definition Bare (b mb : body CS) : Prop := mb = set_stash [] (bd_error b) b.
Lemma retrieve_error : forall (b : body CS) c x b1 c1, retrieve cparse max b c = (x, b1, c1) -> bd_error b1 = bd_error b /\ bd_pending b1 = bd_pending b.
Proof.
  intros b c x b1 c1 H. assert (E : b = set_stash (bd_pending b) (bd_error b) b) by (destruct b; reflexivity).
  rewrite E in H. rewrite retrieve_stash in H. destruct (retrieve cparse max b c) as ((y, b2), c2). injection H as _ <- _. split; reflexivity.
Qed.
Lemma retrieve_bare : forall b mb c m d e b1 c1, Bare b mb -> Shown c m -> retrieve cparse max b c = ((d, e), b1, c1) ->
  exists s m1 mb1, m_retrieve mparse max mb m = ((s, e), mb1, m1) /\ Bare b1 mb1 /\ sl_get (mc_mem m1) s = d /\ Fit (mc_mem m1) s /\ Shown c1 m1 /\
    List.length (mc_mem m1) = List.length (mc_mem m).
Proof.
  intros b mb c m d e b1 c1 HB HS H. pose proof (retrieve_stash b c [] (bd_error b)) as G. rewrite H in G. rewrite <- HB in G.
  destruct (retrieve_shown _ _ _ _ _ _ _ HS G) as (s & m1 & E & R). exists s, m1, (set_stash [] (bd_error b) b1).
  split; [exact E|]. split; [|exact R]. unfold Bare. destruct (retrieve_error _ _ _ _ _ H) as [-> _]. reflexivity.
Qed.
Lemma fuel_same : forall c m, Shown c m -> m_fuel m = loop_fuel c.
Proof. intros c m H. unfold m_fuel, loop_fuel. rewrite (sh_net _ _ H), (sh_pending _ _ H), get_length by apply (sh_inside _ _ H). reflexivity. Qed.

Ltac field_eqs H := destruct H as [?H1 ?H2].
Lemma bytes_loop_shown : forall n b mb c m r b1 c1, Bare b mb -> Shown c m -> bytes_loop cparse max n b c = (r, b1, c1) ->
  exists mb1 m1, m_bytes_loop mparse max n mb m = (r, mb1, m1) /\ Bare b1 mb1 /\ Shown c1 m1 /\ List.length (mc_mem m1) = List.length (mc_mem m) /\
    bd_error b1 = bd_error b /\ bd_pending b1 = bd_pending b.
Proof.
  induction n as [|n IH]; intros b mb c m r b1 c1 HB HS H; cbn [bytes_loop] in H; cbn [m_bytes_loop].
  - injection H as <- <- <-. eauto 10.
  - destruct (retrieve cparse max b c) as (((d, e), b2), c2) eqn:E.
    destruct (retrieve_bare _ _ _ _ _ _ _ _ HB HS E) as (s & m2 & mb2 & -> & HB2 & Hg & Hf & HS2 & HL). rewrite Hg.
    destruct (retrieve_error _ _ _ _ _ E) as [He Hp].
    assert (Hfull : bd_full mb2 = bd_full b2) by (rewrite HB2; reflexivity). assert (Hcap : bd_cap mb2 = bd_cap b2) by (rewrite HB2; reflexivity).
    rewrite Hfull, Hcap.
    assert (HB3 : Bare (set_full (bd_full b2 ++ d) (Z.max (bd_cap b2) (len (bd_full b2 ++ d))) b2) (set_full (bd_full b2 ++ d) (Z.max (bd_cap b2) (len (bd_full b2 ++ d))) mb2)).
    { unfold Bare in *. rewrite HB2. reflexivity. }
    destruct e as [[| | |]|]; try (injection H as <- <- <-; eexists _, _; split; [reflexivity|]; cbn; auto 10).
    destruct (IH _ _ _ _ _ _ _ HB3 HS2 H) as (mb3 & m3 & E3 & HB4 & HS4 & HL4 & He4 & Hp4). cbn [set_full bd_error bd_pending] in *.
    exists mb3, m3. rewrite E3. split; [reflexivity|]. split; [assumption|]. split; [assumption|]. split; [congruence|]. split; congruence.
Qed.
Lemma callback_loop_shown : forall n cb seen b mb c m ps r b1 c1, Bare b mb -> Shown c m -> callback_loop cparse max n cb seen b c = (ps, r, b1, c1) ->
  exists mb1 m1, m_callback_loop mparse max n cb seen mb m = (ps, r, mb1, m1) /\ Bare b1 mb1 /\ Shown c1 m1 /\ List.length (mc_mem m1) = List.length (mc_mem m) /\
    bd_error b1 = bd_error b /\ bd_pending b1 = bd_pending b.
Proof.
  induction n as [|n IH]; intros cb seen b mb c m ps r b1 c1 HB HS H; cbn [callback_loop] in H; cbn [m_callback_loop].
  - injection H as <- <- <- <-. eauto 10.
  - destruct (retrieve cparse max b c) as (((d, e), b2), c2) eqn:E.
    destruct (retrieve_bare _ _ _ _ _ _ _ _ HB HS E) as (s & m2 & mb2 & -> & HB2 & Hg & Hf & HS2 & HL). rewrite Hg.
    destruct (retrieve_error _ _ _ _ _ E) as [He Hp].
    destruct e as [[| | |]|]; try (injection H as <- <- <- <-; eexists _, _; split; [reflexivity|]; cbn; auto 10).
    destruct (cb (seen ++ [d])); [|injection H as <- <- <- <-; eexists _, _; split; [reflexivity|]; auto 10].
    destruct (IH _ _ _ _ _ _ _ _ _ _ HB2 HS2 H) as (mb3 & m3 & E3 & HB4 & HS4 & HL4 & He4 & Hp4).
    exists mb3, m3. rewrite E3. split; [reflexivity|]. split; [assumption|]. split; [assumption|]. split; [congruence|]. split; congruence.
Qed.
Lemma discard_loop_shown : forall n b mb c m r b1 c1, Bare b mb -> Shown c m -> discard_loop cparse max n b c = (r, b1, c1) ->
  exists mb1 m1, m_discard_loop mparse max n mb m = (r, mb1, m1) /\ Bare b1 mb1 /\ Shown c1 m1 /\ List.length (mc_mem m1) = List.length (mc_mem m) /\
    bd_error b1 = bd_error b /\ bd_pending b1 = bd_pending b.
Proof.
  induction n as [|n IH]; intros b mb c m r b1 c1 HB HS H; cbn [discard_loop] in H; cbn [m_discard_loop].
  - injection H as <- <- <-. eauto 10.
  - assert (Hb : bd_eof mb = bd_eof b) by (rewrite HB; reflexivity). rewrite Hb.
    destruct (bd_eof b); [injection H as <- <- <-; eauto 10|].
    destruct (retrieve cparse max b c) as (((d, e), b2), c2) eqn:E.
    destruct (retrieve_bare _ _ _ _ _ _ _ _ HB HS E) as (s & m2 & mb2 & -> & HB2 & Hg & Hf & HS2 & HL).
    destruct (retrieve_error _ _ _ _ _ E) as [He Hp].
    destruct e as [[| | |]|]; try (injection H as <- <- <-; eexists _, _; split; [reflexivity|]; cbn; auto 10).
    destruct (IH _ _ _ _ _ _ _ HB2 HS2 H) as (mb3 & m3 & E3 & HB4 & HS4 & HL4 & He4 & Hp4).
    exists mb3, m3. rewrite E3. split; [reflexivity|]. split; [assumption|]. split; [assumption|]. split; [congruence|]. split; congruence.
Qed.

(* clean: what is held back still shows what it showed *)
Definition Same (clean : bool) (b : body CS) (c : client) (mb : mbody CS) (m : mclient) : Prop :=
  Bare b (mb_body mb) /\ Shown c m /\
  (clean = true -> sl_get (mc_mem m) (mb_held mb) = bd_pending b /\ Fit (mc_mem m) (mb_held mb)).
Lemma held_kept : forall clean b c mb m (mb1 : mbody CS) m1 (b1 : body CS), Same clean b c mb m -> List.length (mc_mem m1) = List.length (mc_mem m) ->
  bd_pending b1 = bd_pending b -> mb_held mb1 = mb_held mb ->
  clean && match bd_pending b with [] => true | _ => false end = true ->
  sl_get (mc_mem m1) (mb_held mb1) = bd_pending b1 /\ Fit (mc_mem m1) (mb_held mb1).
Proof.
  intros clean b c mb m mb1 m1 b1 (_ & _ & HH) HL Hp Hh H. apply andb_true_iff in H as [-> H]. destruct (HH eq_refl) as [Hg Hf].
  destruct (bd_pending b); [|discriminate]. rewrite Hp, Hh. pose proof (get_length _ _ Hf) as HG. rewrite Hg in HG. cbn in HG.
  split; [apply get_nil; auto|]. unfold Fit in *. lia.
Qed.
Lemma op_shown : forall op clean b c mb m o b1 c1, Same clean b c mb m -> (is_read op = true -> clean = true) ->
  body_op cparse max op b c = (o, b1, c1) ->
  exists mb1 m1, m_op mparse max op mb m = (o, mb1, m1) /\
    Same (if is_read op then clean else clean && match bd_pending b with [] => true | _ => false end) b1 c1 mb1 m1.
Proof.
  intros op clean b c mb m o b1 c1 HSame Hr H. pose proof HSame as (HB & HS & HH).
  destruct op as [| |n|cb|]; cbn [body_op m_op is_read] in *.
  - destruct (body_bytes cparse max b c) as ((r, b2), c2) eqn:E. injection H as <- <- <-.
    enough (G : exists mb1 m1, m_bytes mparse max (mb_body mb) m = (r, mb1, m1) /\ Bare b2 mb1 /\ Shown c2 m1 /\ List.length (mc_mem m1) = List.length (mc_mem m) /\ bd_pending b2 = bd_pending b).
    { destruct G as (mb1 & m1 & -> & HB1 & HS1 & HL & Hp). eexists _, _. split; [reflexivity|]. split; [exact HB1|]. split; [exact HS1|].
      apply (held_kept clean b c mb m (MBody mb1 (mb_held mb)) m1 b2); auto. }
    unfold body_bytes in E. unfold m_bytes.
    assert (F1 : bd_eof (mb_body mb) = bd_eof b) by (rewrite HB; reflexivity). assert (F2 : bd_chunked (mb_body mb) = bd_chunked b) by (rewrite HB; reflexivity).
    assert (F3 : bd_cap (mb_body mb) = bd_cap b) by (rewrite HB; reflexivity). assert (F4 : bd_clen (mb_body mb) = bd_clen b) by (rewrite HB; reflexivity).
    assert (F5 : bd_full (mb_body mb) = bd_full b) by (rewrite HB; reflexivity). rewrite F1, F2, F3, F4, F5.
    destruct (bd_eof b); [injection E as <- <- <-; eauto 10|].
    match goal with |- context [if ?x then _ else _] => destruct x end; [injection E as <- <- <-; eauto 10|].
    rewrite (fuel_same c m HS).
    match type of E with bytes_loop _ _ _ ?b0 _ = _ => destruct (bytes_loop_shown _ b0 (set_full (bd_full b0) (bd_cap b0) (mb_body mb)) c m _ _ _ ltac:(unfold Bare; rewrite HB; reflexivity) HS E) as (mb1 & m1 & E1 & HB1 & HS1 & HL1 & He1 & Hp1) end.
    cbn [bd_full bd_cap set_full bd_error bd_pending] in *. exists mb1, m1. auto 10.
  - destruct (retrieve cparse max b c) as (((d, e), b2), c2) eqn:E. injection H as <- <- <-.
    destruct (retrieve_bare _ _ _ _ _ _ _ _ HB HS E) as (s & m2 & mb2 & -> & HB2 & Hg & Hf & HS2 & HL). destruct (retrieve_error _ _ _ _ _ E) as [He Hp].
    rewrite Hg. eexists _, _. split; [reflexivity|]. split; [exact HB2|]. split; [exact HS2|].
    apply (held_kept clean b c mb m (MBody mb2 (mb_held mb)) m2 b2); auto.
  - specialize (Hr eq_refl). subst clean. destruct (HH eq_refl) as [Hg Hf]. pose proof (get_length _ _ Hf) as HG. rewrite Hg in HG.
    unfold body_read in H. unfold m_read.
    assert (Herr : bd_error (mb_body mb) = bd_error b) by (rewrite HB; reflexivity). rewrite Herr.
    assert (G : exists b2 c2 mb2 held m2, (match bd_pending b, bd_error b with
        | [], None => let '((d, e), b', c') := retrieve cparse max b c in (set_stash d e b', c')
        | _, _ => (b, c) end) = (b2, c2) /\
      (if Nat.eqb (sl_len (mb_held mb)) 0 && match bd_error b with None => true | _ => false end
       then let '((d, e), b', c') := m_retrieve mparse max (mb_body mb) m in (set_stash [] e b', d, c')
       else (mb_body mb, mb_held mb, m)) = (mb2, held, m2) /\ Bare b2 mb2 /\ Shown c2 m2 /\ sl_get (mc_mem m2) held = bd_pending b2 /\ Fit (mc_mem m2) held).
    { destruct (bd_pending b) as [|x p] eqn:Ep.
      - rewrite <- HG. cbn [List.length Nat.eqb andb]. destruct (bd_error b) eqn:Ee; [eexists _, _, _, _, _; split; [reflexivity|]; split; [reflexivity|]; rewrite Ep; auto|].
        destruct (retrieve cparse max b c) as (((d, e), b2), c2) eqn:E.
        destruct (retrieve_bare _ _ _ _ _ _ _ _ HB HS E) as (s & m2 & mb2 & -> & HB2 & Hg2 & Hf2 & HS2 & HL).
        eexists _, _, _, _, _. split; [reflexivity|]. split; [reflexivity|]. cbn [set_stash bd_pending]. split; [|auto].
        unfold Bare in *. rewrite HB2. reflexivity.
      - rewrite <- HG. cbn [List.length Nat.eqb andb]. eexists _, _, _, _, _. split; [reflexivity|]. split; [reflexivity|]. rewrite Ep. auto. }
    destruct G as (b2 & c2 & mb2 & held & m2 & E1 & -> & HB2 & HS2 & Hg2 & Hf2). rewrite E1 in H. injection H as <- <- <-.
    rewrite Hg2. pose proof (get_length _ _ Hf2) as HL2. rewrite Hg2 in HL2.
    assert (Hk : skipn (List.length (firstn n (bd_pending b2))) (bd_pending b2) = skipn n (bd_pending b2)).
    { rewrite firstn_length. destruct (Nat.le_ge_cases n (List.length (bd_pending b2))); [rewrite Nat.min_l by assumption; reflexivity|].
      rewrite Nat.min_r by assumption. rewrite !skipn_all2 by lia. reflexivity. }
    assert (Herr2 : bd_error mb2 = bd_error b2) by (rewrite HB2; reflexivity).
    assert (Hfr : Fit (mc_mem m2) (sl_from (List.length (firstn n (bd_pending b2))) held)) by (apply fit_from; [assumption|rewrite firstn_length; lia]).
    assert (Hgr : sl_get (mc_mem m2) (sl_from (List.length (firstn n (bd_pending b2))) held) = skipn n (bd_pending b2)) by (rewrite get_from, Hg2; exact Hk).
    eexists _, _. split.
    + f_equal. f_equal. f_equal. pose proof (get_length _ _ Hfr) as Hlr. rewrite Hgr in Hlr. rewrite <- Hlr, Herr2.
      destruct (skipn n (bd_pending b2)); reflexivity.
    + unfold Same. cbn [mb_body mb_held set_stash bd_pending]. split; [unfold Bare in *; rewrite HB2; reflexivity|]. split; [assumption|]. auto.
  - unfold body_callback in H. destruct (callback_loop cparse max (loop_fuel c) cb [] b c) as (((ps, r), b2), c2) eqn:E. injection H as <- <- <-.
    destruct (callback_loop_shown _ _ _ _ _ _ _ _ _ _ _ HB HS E) as (mb2 & m2 & E2 & HB2 & HS2 & HL & He & Hp). rewrite (fuel_same c m HS), E2.
    eexists _, _. split; [reflexivity|]. split; [exact HB2|]. split; [exact HS2|]. apply (held_kept clean b c mb m (MBody mb2 (mb_held mb)) m2 b2); auto.
  - unfold body_discard in H. destruct (discard_loop cparse max (loop_fuel c) b c) as ((r, b2), c2) eqn:E. injection H as <- <- <-.
    destruct (discard_loop_shown _ _ _ _ _ _ _ _ HB HS E) as (mb2 & m2 & E2 & HB2 & HS2 & HL & He & Hp). rewrite (fuel_same c m HS), E2.
    eexists _, _. split; [reflexivity|]. split; [exact HB2|]. split; [exact HS2|]. apply (held_kept clean b c mb m (MBody mb2 (mb_held mb)) m2 b2); auto.
Qed.
Lemma ops_shown : forall ops clean b c mb m os b1 c1, Same clean b c mb m -> Unmixed cparse max clean ops b c ->
  body_ops cparse max ops b c = (os, b1, c1) ->
  exists mb1 m1, m_ops mparse max ops mb m = (os, mb1, m1) /\ Bare b1 (mb_body mb1) /\ Shown c1 m1.
Proof.
  induction ops as [|op ops IH]; intros clean b c mb m os b1 c1 HSame HU H; cbn [body_ops] in H; cbn [m_ops].
  - injection H as <- <- <-. destruct HSame as (? & ? & _). eauto.
  - destruct (body_op cparse max op b c) as ((o, b2), c2) eqn:E. destruct (body_ops cparse max ops b2 c2) as ((os2, b3), c3) eqn:E2.
    injection H as <- <- <-. cbn [Unmixed] in HU. rewrite E in HU.
    assert (Hc : is_read op = true -> clean = true) by (destruct op; try discriminate; intros _; apply HU).
    assert (HU2 : Unmixed cparse max (if is_read op then clean else clean && match bd_pending b with [] => true | _ => false end) ops b2 c2) by (destruct op; try exact HU; apply HU).
    destruct (op_shown op clean b c mb m o b2 c2 HSame Hc E) as (mb2 & m2 & -> & HSame2).
    destruct (IH _ _ _ _ _ _ _ _ HSame2 HU2 E2) as (mb3 & m3 & -> & R). eauto.
Qed.
Lemma init_same : forall (b : body CS) r c mb m, Shown c m -> set_stash [] None (mb_body mb) = set_stash [] None b ->
  Same true (body_init b r) c (mb_init mb r) m.
Proof.
  intros b r c mb m HS HB. unfold Same, mb_init. cbn [mb_body mb_held]. split; [|split; [assumption|intros _; unfold body_init; destruct (enc_chunked (r_encoding r)); split; try reflexivity; unfold Fit; cbn; lia]].
  unfold Bare. destruct (mb_body mb) as [a1 a2 a3 a4 a5 a6 a7 a8 a9 a10 a11], b as [q1 q2 q3 q4 q5 q6 q7 q8 q9 q10 q11]. cbn in HB. injection HB as -> -> -> -> -> -> -> -> ->.
  unfold body_init. cbn. destruct (enc_chunked (r_encoding r)); reflexivity.
Qed.
Lemma memory_same : forall ops (b : body CS) r c mb m os b1 c1, Shown c m -> set_stash [] None (mb_body mb) = set_stash [] None b ->
  Unmixed cparse max true ops (body_init b r) c ->
  body_ops cparse max ops (body_init b r) c = (os, b1, c1) ->
  exists mb1 m1, m_ops mparse max ops (mb_init mb r) m = (os, mb1, m1) /\ Shown c1 m1 /\ set_stash [] None (mb_body mb1) = set_stash [] None b1.
Proof.
  intros ops b r c mb m os b1 c1 HS HB HU H. destruct (ops_shown _ _ _ _ _ _ _ _ _ (init_same b r c mb m HS HB) HU H) as (mb1 & m1 & E & HB1 & HS1).
  exists mb1, m1. split; [exact E|]. split; [exact HS1|]. rewrite HB1. reflexivity.
Qed.
Lemma no_reads_unmixed : forall ops clean (b : body CS) c, Forall (fun op => is_read op = false) ops -> Unmixed cparse max clean ops b c.
Proof.
  induction ops as [|op ops IH]; intros clean b c H; cbn [Unmixed]; [exact I|]. inversion H as [|? ? H1 H2]; subst.
  destruct (body_op cparse max op b c) as ((o, b1), c1). destruct op; try discriminate; apply IH; assumption.
Qed.
Lemma reads_first_unmixed : forall ns ops (b : body CS) c, Forall (fun op => is_read op = false) ops -> Unmixed cparse max true (map ORead ns ++ ops) b c.
Proof.
  induction ns as [|n ns IH]; intros ops b c H; [apply no_reads_unmixed; assumption|]. cbn [map app Unmixed].
  destruct (body_op cparse max (ORead n) b c) as ((o, b1), c1). auto.
Qed.
(* ---- any mix of accessors: only the bytes Read gives can differ ---- *)
Definition Near (b : body CS) (c : client) (mb : mbody CS) (m : mclient) : Prop :=
  Bare b (mb_body mb) /\ Shown c m /\ Fit (mc_mem m) (mb_held mb) /\ sl_len (mb_held mb) = List.length (bd_pending b).
Lemma near_kept : forall b c mb m b1 c1 mb1 m1, Near b c mb m -> Bare b1 mb1 -> Shown c1 m1 -> List.length (mc_mem m1) = List.length (mc_mem m) ->
  bd_pending b1 = bd_pending b -> Near b1 c1 (MBody mb1 (mb_held mb)) m1.
Proof. intros b c mb m b1 c1 mb1 m1 (_ & _ & HF & HL) HB HS HM Hp. split; [exact HB|]. split; [exact HS|]. cbn [mb_held]. split; [unfold Fit in *; lia|congruence]. Qed.
Lemma op_near : forall op b c mb m o b1 c1, Near b c mb m -> body_op cparse max op b c = (o, b1, c1) ->
  exists o' mb1 m1, m_op mparse max op mb m = (o', mb1, m1) /\ alike op o o' /\ Near b1 c1 mb1 m1.
Proof.
  intros op b c mb m o b1 c1 HN H. pose proof HN as (HB & HS & HF & HL). destruct op as [| |n|cb|]; cbn [body_op m_op] in *.
  - destruct (body_bytes cparse max b c) as ((r, b2), c2) eqn:E. injection H as <- <- <-.
    enough (G : exists mb1 m1, m_bytes mparse max (mb_body mb) m = (r, mb1, m1) /\ Bare b2 mb1 /\ Shown c2 m1 /\ List.length (mc_mem m1) = List.length (mc_mem m) /\ bd_pending b2 = bd_pending b).
    { destruct G as (mb1 & m1 & -> & HB1 & HS1 & HL1 & Hp). eexists _, _, _. split; [reflexivity|]. split; [left; reflexivity|]. eapply near_kept; eassumption. }
    unfold body_bytes in E. unfold m_bytes.
    assert (F1 : bd_eof (mb_body mb) = bd_eof b) by (rewrite HB; reflexivity). assert (F2 : bd_chunked (mb_body mb) = bd_chunked b) by (rewrite HB; reflexivity).
    assert (F3 : bd_cap (mb_body mb) = bd_cap b) by (rewrite HB; reflexivity). assert (F4 : bd_clen (mb_body mb) = bd_clen b) by (rewrite HB; reflexivity).
    assert (F5 : bd_full (mb_body mb) = bd_full b) by (rewrite HB; reflexivity). rewrite F1, F2, F3, F4, F5.
    destruct (bd_eof b); [injection E as <- <- <-; eauto 10|].
    match goal with |- context [if ?x then _ else _] => destruct x end; [injection E as <- <- <-; eauto 10|].
    rewrite (fuel_same c m HS).
    match type of E with bytes_loop _ _ _ ?b0 _ = _ => destruct (bytes_loop_shown _ b0 (set_full (bd_full b0) (bd_cap b0) (mb_body mb)) c m _ _ _ ltac:(unfold Bare; rewrite HB; reflexivity) HS E) as (mb1 & m1 & E1 & HB1 & HS1 & HL1 & He1 & Hp1) end.
    cbn [bd_full bd_cap set_full bd_error bd_pending] in *. exists mb1, m1. auto 10.
  - destruct (retrieve cparse max b c) as (((d, e), b2), c2) eqn:E. injection H as <- <- <-.
    destruct (retrieve_bare _ _ _ _ _ _ _ _ HB HS E) as (s & m2 & mb2 & -> & HB2 & Hg & Hf & HS2 & HL2). destruct (retrieve_error _ _ _ _ _ E) as [He Hp].
    rewrite Hg. eexists _, _, _. split; [reflexivity|]. split; [left; reflexivity|]. eapply near_kept; eassumption.
  - unfold body_read in H. unfold m_read.
    assert (Herr : bd_error (mb_body mb) = bd_error b) by (rewrite HB; reflexivity). rewrite Herr.
    assert (G : exists b2 c2 mb2 held m2, (match bd_pending b, bd_error b with
        | [], None => let '((d, e), b', c') := retrieve cparse max b c in (set_stash d e b', c')
        | _, _ => (b, c) end) = (b2, c2) /\
      (if Nat.eqb (sl_len (mb_held mb)) 0 && match bd_error b with None => true | _ => false end
       then let '((d, e), b', c') := m_retrieve mparse max (mb_body mb) m in (set_stash [] e b', d, c')
       else (mb_body mb, mb_held mb, m)) = (mb2, held, m2) /\ Bare b2 mb2 /\ Shown c2 m2 /\ sl_len held = List.length (bd_pending b2) /\ Fit (mc_mem m2) held).
    { destruct (bd_pending b) as [|x p] eqn:Ep.
      - rewrite HL. cbn [List.length Nat.eqb andb]. destruct (bd_error b) eqn:Ee; [eexists _, _, _, _, _; split; [reflexivity|]; split; [reflexivity|]; rewrite Ep; auto|].
        destruct (retrieve cparse max b c) as (((d, e), b2), c2) eqn:E.
        destruct (retrieve_bare _ _ _ _ _ _ _ _ HB HS E) as (s & m2 & mb2 & -> & HB2 & Hg2 & Hf2 & HS2 & HL2).
        eexists _, _, _, _, _. split; [reflexivity|]. split; [reflexivity|]. cbn [set_stash bd_pending]. split; [|split; [exact HS2|split; [|exact Hf2]]].
        + unfold Bare in *. rewrite HB2. reflexivity.
        + rewrite <- Hg2. symmetry. apply get_length. exact Hf2.
      - rewrite HL. cbn [List.length Nat.eqb andb]. eexists _, _, _, _, _. split; [reflexivity|]. split; [reflexivity|]. rewrite Ep. auto. }
    destruct G as (b2 & c2 & mb2 & held & m2 & E1 & -> & HB2 & HS2 & HL2 & Hf2). rewrite E1 in H. injection H as <- <- <-.
    pose proof (get_length _ _ Hf2) as HG.
    assert (Hlen : List.length (firstn n (sl_get (mc_mem m2) held)) = List.length (firstn n (bd_pending b2))) by (rewrite !firstn_length; lia).
    assert (Herr2 : bd_error mb2 = bd_error b2) by (rewrite HB2; reflexivity).
    assert (Hrest : sl_len (sl_from (List.length (firstn n (sl_get (mc_mem m2) held))) held) = List.length (skipn n (bd_pending b2))).
    { unfold sl_from. cbn [sl_len]. rewrite Hlen, firstn_length, skipn_length. lia. }
    eexists _, _, _. split; [reflexivity|]. split.
    + right. split; [reflexivity|]. eexists _, _, _. split; [reflexivity|]. split; [|symmetry; exact Hlen]. f_equal. rewrite Hrest, Herr2.
      destruct (skipn n (bd_pending b2)); reflexivity.
    + split; [unfold Bare in *; cbn [mb_body]; rewrite HB2; reflexivity|]. split; [assumption|]. cbn [mb_held set_stash bd_pending]. split; [|exact Hrest].
      apply fit_from; [exact Hf2|]. rewrite firstn_length. lia.
  - unfold body_callback in H. destruct (callback_loop cparse max (loop_fuel c) cb [] b c) as (((ps, r), b2), c2) eqn:E. injection H as <- <- <-.
    destruct (callback_loop_shown _ _ _ _ _ _ _ _ _ _ _ HB HS E) as (mb2 & m2 & E2 & HB2 & HS2 & HL2 & He & Hp). rewrite (fuel_same c m HS), E2.
    eexists _, _, _. split; [reflexivity|]. split; [left; reflexivity|]. eapply near_kept; eassumption.
  - unfold body_discard in H. destruct (discard_loop cparse max (loop_fuel c) b c) as ((r, b2), c2) eqn:E. injection H as <- <- <-.
    destruct (discard_loop_shown _ _ _ _ _ _ _ _ HB HS E) as (mb2 & m2 & E2 & HB2 & HS2 & HL2 & He & Hp). rewrite (fuel_same c m HS), E2.
    eexists _, _, _. split; [reflexivity|]. split; [left; reflexivity|]. eapply near_kept; eassumption.
Qed.
Lemma ops_near : forall ops b c mb m os b1 c1, Near b c mb m -> body_ops cparse max ops b c = (os, b1, c1) ->
  exists os' mb1 m1, m_ops mparse max ops mb m = (os', mb1, m1) /\
    Forall2 (fun op oo => alike op (fst oo) (snd oo)) ops (combine os os') /\ List.length os' = List.length os /\ Near b1 c1 mb1 m1.
Proof.
  induction ops as [|op ops IH]; intros b c mb m os b1 c1 HN H; cbn [body_ops] in H; cbn [m_ops].
  - injection H as <- <- <-. eexists _, _, _. split; [reflexivity|]. split; [constructor|]. split; [reflexivity|exact HN].
  - destruct (body_op cparse max op b c) as ((o, b2), c2) eqn:E. destruct (body_ops cparse max ops b2 c2) as ((os2, b3), c3) eqn:E2.
    injection H as <- <- <-. destruct (op_near op b c mb m o b2 c2 HN E) as (o' & mb2 & m2 & -> & Ha & HN2).
    destruct (IH _ _ _ _ _ _ _ HN2 E2) as (os' & mb3 & m3 & -> & HF & HL & HN3). eexists _, _, _. split; [reflexivity|].
    cbn [combine]. split; [constructor; assumption|]. split; [cbn; congruence|exact HN3].
Qed.
Lemma memory_near : forall ops (b : body CS) r c mb m os b1 c1, Shown c m -> set_stash [] None (mb_body mb) = set_stash [] None b ->
  body_ops cparse max ops (body_init b r) c = (os, b1, c1) ->
  exists os' mb1 m1, m_ops mparse max ops (mb_init mb r) m = (os', mb1, m1) /\
    Forall2 (fun op oo => alike op (fst oo) (snd oo)) ops (combine os os') /\ List.length os' = List.length os /\
    Shown c1 m1 /\ set_stash [] None (mb_body mb1) = set_stash [] None b1.
Proof.
  intros ops b r c mb m os b1 c1 HS HB H. destruct (init_same b r c mb m HS HB) as (I1 & I2 & I3). destruct (I3 eq_refl) as [I4 I5].
  assert (HN : Near (body_init b r) c (mb_init mb r) m).
  { split; [exact I1|]. split; [exact I2|]. split; [exact I5|]. rewrite <- I4. symmetry. apply get_length. exact I5. }
  destruct (ops_near _ _ _ _ _ _ _ _ HN H) as (os' & mb1 & m1 & E & HF & HL & (N1 & N2 & _)).
  exists os', mb1, m1. split; [exact E|]. split; [exact HF|]. split; [exact HL|]. split; [exact N2|]. rewrite N1. reflexivity.
Qed.
End Mem.
