From Verif Require Import M_Base M_Status M_Proto M_KeyValue M_Query M_Request M_Client M_Body S_Body S_Cut L_Base L_Body L_Body2 L_BodyProps.

Local Arguments client_unread : simpl never.
Local Arguments net_size : simpl never.

Lemma piece_refl : forall t, piece_of t t.
Proof. intros t. exists [], []. rewrite app_nil_r. reflexivity. Qed.
Lemma piece_nil : forall t, piece_of t [].
Proof. intros t. exists [], t. reflexivity. Qed.
Lemma piece_sub : forall t a d z, piece_of t (a ++ d ++ z) -> piece_of t d.
Proof. intros t a d z (x & y & ->). exists (x ++ a), (z ++ y). rewrite <- !app_assoc. reflexivity. Qed.
Lemma piece_firstn : forall t d n, piece_of t d -> piece_of t (firstn n d).
Proof. intros t d n H. apply (piece_sub t [] _ (skipn n d)). cbn. rewrite firstn_skipn. exact H. Qed.
Lemma piece_skipn : forall t d n, piece_of t d -> piece_of t (skipn n d).
Proof. intros t d n H. apply (piece_sub t (firstn n d) _ []). rewrite app_nil_r, firstn_skipn. exact H. Qed.

Lemma read_not_closed : forall c, NotClosed c ->
  (exists d c', client_read c = ((d, None), c') /\ NotClosed c' /\ arrives c = d ++ arrives c' /\ cl_pending c' = [] /\
     (csize c' + List.length d <= csize c)%nat /\ (csize c' < csize c)%nat /\ (d = [] -> csize c' + List.length d < csize c)%nat) \/
  (exists d c', client_read c = ((d, Some NOther), c') /\ NotClosed c' /\ arrives c = arrives c').
Proof.
  intros [net p out w] H. unfold NotClosed, arrives, client_read, csize in *. cbn [cl_net cl_pending cl_out cl_wres] in *.
  destruct p as [|x p].
  - destruct net as [|[d e] net]; [right; eexists _, _; split; [reflexivity|]; auto|].
    inversion H as [|? ? Hd Hn]; subst. cbn [snd] in Hd. destruct e as [[|]|]; [congruence| |].
    + right. eexists _, _. split; [reflexivity|]. auto.
    + left. eexists _, _. split; [reflexivity|]. unfold net_size. cbn [cl_net cl_pending net_all app fold_right fst List.length]. repeat split; auto; lia.
  - left. eexists _, _. split; [reflexivity|]. cbn [cl_net cl_pending app List.length]. repeat split; auto; try lia. discriminate.
Qed.

Section Cut.
Variable CS : Type.
Variable cparse : CS -> bytes -> bool -> CS * (bytes * bytes * option cerr).
Variable max : Z.
Variable Inv : body CS -> client -> bytes -> Prop.
Notation retrieve := (retrieve cparse max).
Hypothesis step : forall b c fut, Inv b c fut -> exists d e b' c',
  retrieve b c = ((d, e), b', c') /\ bd_pending b' = bd_pending b /\ bd_error b' = bd_error b /\
  ((e = None /\ exists fut', fut = d ++ fut' /\ Inv b' c' fut' /\ (csize c' < csize c)%nat) \/
   (e = Some BNet /\ d = [] /\ Inv b' c' fut)).
Hypothesis inv_eof : forall b c fut, Inv b c fut -> bd_eof b = false.
Hypothesis inv_full : forall b c fut f cap, Inv b c fut -> Inv (set_full f cap b) c fut.
Hypothesis inv_stash : forall b c fut p e, Inv b c fut -> Inv (set_stash p e b) c fut.
Hypothesis inv_alloc : forall b c fut, Inv b c fut -> bd_chunked b = true \/ (bd_clen b <= max_alloc)%Z.

Definition stash (b : body CS) := (bd_pending b, bd_error b).

Lemma cut_bytes_loop : forall n b c fut, Inv b c fut -> (csize c < n)%nat ->
  exists b' c' a fut', bytes_loop cparse max n b c = (BRErr BNet, b', c') /\ stash b' = stash b /\ fut = a ++ fut' /\ Inv b' c' fut'.
Proof.
  induction n as [|n IH]; intros b c fut HI Hn; [lia|].
  destruct (step _ _ _ HI) as (d & e & b1 & c1 & Hr & Hp & He & Hc). cbn [bytes_loop]. rewrite Hr.
  destruct Hc as [(-> & fut' & -> & HI' & Hs) | (-> & -> & HI')].
  - destruct (IH (set_full (bd_full b1 ++ d) (Z.max (bd_cap b1) (len (bd_full b1 ++ d))) b1) c1 fut') as (b' & c' & a & f2 & E & Hst & -> & HI2); [auto|lia|].
    exists b', c', (d ++ a), f2. rewrite E. split; [reflexivity|]. split; [|rewrite <- app_assoc; auto].
    rewrite Hst. unfold stash. cbn. congruence.
  - eexists _, _, [], fut. split; [reflexivity|]. split; [unfold stash; cbn; congruence|]. split; [reflexivity|]. auto.
Qed.
Lemma cut_callback_loop : forall n b c fut seen cb, Inv b c fut -> (csize c < n)%nat ->
  exists ps r b' c' fut', callback_loop cparse max n cb seen b c = (seen ++ ps, r, b', c') /\ (r = Some (Some BNet) \/ r = None) /\
    stash b' = stash b /\ fut = concat ps ++ fut' /\ Inv b' c' fut'.
Proof.
  induction n as [|n IH]; intros b c fut seen cb HI Hn; [lia|].
  destruct (step _ _ _ HI) as (d & e & b1 & c1 & Hr & Hp & He & Hc). cbn [callback_loop]. rewrite Hr.
  destruct Hc as [(-> & fut' & -> & HI' & Hs) | (-> & -> & HI')].
  - destruct (cb (seen ++ [d])).
    + destruct (IH b1 c1 fut' (seen ++ [d]) cb HI') as (ps & r & b' & c' & f2 & E & Hr2 & Hst & -> & HI2); [lia|].
      exists (d :: ps), r, b', c', f2. rewrite E, <- app_assoc. cbn [concat]. rewrite <- app_assoc.
      split; [reflexivity|]. split; [assumption|]. split; [|auto]. rewrite Hst. unfold stash. congruence.
    + exists [d], None, b1, c1, fut'. cbn [concat]. rewrite app_nil_r. split; [reflexivity|]. split; [auto|].
      split; [unfold stash; congruence|]. auto.
  - exists [], (Some (Some BNet)), b1, c1, fut. rewrite app_nil_r. split; [reflexivity|]. split; [auto|]. split; [unfold stash; congruence|]. auto.
Qed.
Lemma cut_discard_loop : forall n b c fut, Inv b c fut -> (csize c < n)%nat ->
  exists b' c' a fut', discard_loop cparse max n b c = (Some (Some BNet), b', c') /\ stash b' = stash b /\ fut = a ++ fut' /\ Inv b' c' fut'.
Proof.
  induction n as [|n IH]; intros b c fut HI Hn; [lia|].
  destruct (step _ _ _ HI) as (d & e & b1 & c1 & Hr & Hp & He & Hc). cbn [discard_loop]. rewrite (inv_eof _ _ _ HI), Hr.
  destruct Hc as [(-> & fut' & -> & HI' & Hs) | (-> & -> & HI')].
  - destruct (IH b1 c1 fut' HI') as (b' & c' & a & f2 & E & Hst & -> & HI2); [lia|].
    exists b', c', (d ++ a), f2. rewrite <- app_assoc. split; [assumption|]. split; [|auto]. rewrite Hst. unfold stash. congruence.
  - exists b1, c1, [], fut. split; [reflexivity|]. split; [unfold stash; congruence|]. auto.
Qed.

(* everything arriving so far: what remains is a suffix, what is held back a piece *)
Definition Mid (text : bytes) (b : body CS) (c : client) : Prop :=
  exists pre fut, text = pre ++ fut /\ Inv b c fut /\ piece_of text (bd_pending b) /\ (bd_error b = None \/ bd_error b = Some BNet).

Lemma cut_op : forall op text b c, Mid text b c ->
  exists o b' c', body_op cparse max op b c = (o, b', c') /\ Incomplete o /\ piece_of text (out_data o) /\ Mid text b' c'.
Proof.
  intros op text b c (pre & fut & -> & HI & Hp & He).
  assert (F : (csize c < loop_fuel c)%nat) by (unfold loop_fuel, csize; lia).
  destruct op as [| |n|cb|]; cbn [body_op].
  - unfold body_bytes. rewrite (inv_eof _ _ _ HI).
    assert (Hg : negb (bd_chunked b) && (bd_cap b <? bd_clen b)%Z && (bd_clen b >? max_alloc)%Z = false).
    { destruct (inv_alloc _ _ _ HI) as [-> | Hl]; [reflexivity|].
      replace (bd_clen b >? max_alloc)%Z with false by (symmetry; rewrite Z.gtb_ltb; apply Z.ltb_ge; lia).
      rewrite andb_false_r. reflexivity. }
    rewrite Hg.
    match goal with |- context [bytes_loop _ _ _ ?b0 _] => destruct (cut_bytes_loop (loop_fuel c) b0 c fut) as (b' & c' & a & f2 & E & Hst & -> & HI2); [auto|exact F|] end.
    rewrite E. eexists _, _, _. split; [reflexivity|]. split; [constructor|]. split; [apply piece_nil|].
    unfold stash in Hst. cbn [set_full bd_pending bd_error] in Hst. injection Hst as H1 H2.
    exists (pre ++ a), f2. rewrite <- app_assoc, H1, H2. auto.
  - destruct (step _ _ _ HI) as (d & e & b1 & c1 & Hr & H1 & H2 & Hc). rewrite Hr.
    eexists _, _, _. split; [reflexivity|].
    destruct Hc as [(-> & fut' & -> & HI' & Hs) | (-> & -> & HI')].
    + split; [constructor|]. split; [exists pre, fut'; reflexivity|]. exists (pre ++ d), fut'. rewrite <- app_assoc, H1, H2. auto.
    + split; [constructor|]. split; [apply piece_nil|]. exists pre, fut. rewrite H1, H2. auto.
  - unfold body_read.
    assert (G : exists b1 c1, (match bd_pending b, bd_error b with
        | [], None => let '((d, e), b', c') := retrieve b c in (set_stash d e b', c')
        | _, _ => (b, c)
        end) = (b1, c1) /\ Mid (pre ++ fut) b1 c1).
    { assert (Old : Mid (pre ++ fut) b c) by (exists pre, fut; auto).
      destruct (bd_pending b) eqn:Ep; [|eauto]. destruct (bd_error b) eqn:Ee; [eauto|].
      destruct (step _ _ _ HI) as (d & e & b1 & c1 & Hr & H1 & H2 & Hc). rewrite Hr. eexists _, _. split; [reflexivity|].
      destruct Hc as [(-> & fut' & -> & HI' & Hs) | (-> & -> & HI')].
      - exists (pre ++ d), fut'. rewrite <- app_assoc. cbn. repeat split; auto. exists pre, fut'. reflexivity.
      - exists pre, fut. cbn. repeat split; auto. }
    destruct G as (b1 & c1 & -> & (pre' & fut' & Ht & HI' & Hp' & He')).
    eexists _, _, _. split; [reflexivity|]. split.
    { destruct (skipn n (bd_pending b1)); [|constructor]. destruct He' as [-> | ->]; constructor. }
    cbn [out_data]. split; [apply piece_firstn; assumption|].
    exists pre', fut'. cbn [set_stash bd_pending bd_error]. split; [assumption|]. split; [auto|]. split; [apply piece_skipn; assumption|assumption].
  - unfold body_callback. destruct (cut_callback_loop (loop_fuel c) b c fut [] cb HI F) as (ps & r & b' & c' & f2 & E & Hr & Hst & -> & HI2).
    rewrite E. cbn [app]. eexists _, _, _. split; [reflexivity|]. split; [destruct Hr as [-> | ->]; constructor|].
    cbn [out_data]. split; [exists pre, f2; reflexivity|]. unfold stash in Hst. injection Hst as H1 H2.
    exists (pre ++ concat ps), f2. rewrite <- app_assoc, H1, H2. auto.
  - unfold body_discard. destruct (cut_discard_loop (loop_fuel c) b c fut HI F) as (b' & c' & a & f2 & E & Hst & -> & HI2).
    rewrite E. eexists _, _, _. split; [reflexivity|]. split; [constructor|]. split; [apply piece_nil|].
    unfold stash in Hst. injection Hst as H1 H2. exists (pre ++ a), f2. rewrite <- app_assoc, H1, H2. auto.
Qed.
Lemma cut_ops : forall ops text b c os b' c', Mid text b c -> body_ops cparse max ops b c = (os, b', c') ->
  Forall (fun o => Incomplete o /\ piece_of text (out_data o)) os.
Proof.
  induction ops as [|op ops IH]; intros text b c os b' c' HM H; cbn [body_ops] in H.
  - injection H as <- <- <-. constructor.
  - destruct (cut_op op text b c HM) as (o & b1 & c1 & E & Hu & Hp & HM1). rewrite E in H.
    destruct (body_ops cparse max ops b1 c1) as ((os1, b2), c2) eqn:E2. injection H as <- <- <-.
    constructor; [auto|]. eapply IH; eauto.
Qed.

(* in order *)
Lemma cut_uniform : forall ops, Uniform ops -> forall b c fut os b' c', Inv b c fut -> bd_pending b = [] -> bd_error b = None ->
  body_ops cparse max ops b c = (os, b', c') -> exists left, fut = concat (map out_data os) ++ left.
Proof.
  intros ops [Hops|Hops].
  - induction ops as [|op ops IH]; intros b c fut os b' c' HI Hp He H; cbn [body_ops] in H.
    { injection H as <- <- <-. exists fut. reflexivity. }
    inversion Hops as [|? ? Ho Hr]; subst. destruct op as [| |n|cb|]; try contradiction; cbn [body_op] in H.
    + destruct (step _ _ _ HI) as (d & e & b1 & c1 & E & H1 & H2 & Hc). rewrite E in H.
      destruct (body_ops cparse max ops b1 c1) as ((os1, b2), c2) eqn:E2. injection H as <- <- <-. cbn [map out_data concat].
      destruct Hc as [(-> & fut' & -> & HI' & Hs) | (-> & -> & HI')].
      * destruct (IH Hr b1 c1 fut' os1 b2 c2 HI' ltac:(congruence) ltac:(congruence) E2) as (left & ->). exists left. rewrite <- app_assoc. reflexivity.
      * exact (IH Hr b1 c1 fut os1 b2 c2 HI' ltac:(congruence) ltac:(congruence) E2).
    + unfold body_callback in H. assert (F : (csize c < loop_fuel c)%nat) by (unfold loop_fuel, csize; lia).
      destruct (cut_callback_loop (loop_fuel c) b c fut [] cb HI F) as (ps & r & b1 & c1 & f2 & E & _ & Hst & -> & HI2).
      rewrite E in H. destruct (body_ops cparse max ops b1 c1) as ((os1, b2), c2) eqn:E2. injection H as <- <- <-. cbn [map out_data concat app].
      unfold stash in Hst. injection Hst as H1 H2.
      destruct (IH Hr b1 c1 f2 os1 b2 c2 HI2 ltac:(congruence) ltac:(congruence) E2) as (left & ->). exists left. rewrite <- app_assoc. reflexivity.
  - enough (G : forall b c fut os b' c', Inv b c fut -> body_ops cparse max ops b c = (os, b', c') ->
        exists left, bd_pending b ++ fut = concat (map out_data os) ++ left).
    { intros b c fut os b' c' HI Hp He H. destruct (G b c fut os b' c' HI H) as (left & E). rewrite Hp in E. exists left. exact E. }
    induction ops as [|op ops IH]; intros b c fut os b' c' HI H; cbn [body_ops] in H.
    { injection H as <- <- <-. eexists. reflexivity. }
    inversion Hops as [|? ? Ho Hr]; subst. destruct op as [| |n|cb|]; try contradiction; cbn [body_op] in H.
    unfold body_read in H.
    assert (Gd : exists b1 c1 fut1, (match bd_pending b, bd_error b with
        | [], None => let '((d, e), b', c') := retrieve b c in (set_stash d e b', c')
        | _, _ => (b, c)
        end) = (b1, c1) /\ Inv b1 c1 fut1 /\ bd_pending b ++ fut = bd_pending b1 ++ fut1).
    { assert (Old : exists b1 c1 fut1, (b, c) = (b1, c1) /\ Inv b1 c1 fut1 /\ bd_pending b ++ fut = bd_pending b1 ++ fut1) by eauto 8.
      destruct (bd_pending b) eqn:Ep; [|rewrite <- Ep in *; exact Old]. destruct (bd_error b) eqn:Ee; [rewrite <- Ep in *; exact Old|].
      destruct (step _ _ _ HI) as (d & e & b1 & c1 & E & H1 & H2 & Hc). rewrite E. eexists _, _.
      destruct Hc as [(-> & fut' & -> & HI' & Hs) | (-> & -> & HI')].
      - exists fut'. split; [reflexivity|]. cbn. auto.
      - exists fut. split; [reflexivity|]. cbn. auto. }
    destruct Gd as (b1 & c1 & fut1 & Eb & HI1 & Ht). rewrite Eb in H. rewrite Ht.
    match type of H with context [body_ops _ _ _ ?bb ?cc] => destruct (body_ops cparse max ops bb cc) as ((os1, b2), c2) eqn:E2 end.
    injection H as <- <- <-. cbn [map out_data concat].
    destruct (IH Hr _ _ fut1 _ _ _ (inv_stash _ _ _ _ _ HI1) E2) as (left & El). cbn [set_stash bd_pending] in El.
    exists left. rewrite <- app_assoc, <- El, app_assoc, firstn_skipn. reflexivity.
Qed.
End Cut.

(* ---- fixed length ---- *)
Section CutPlain.
Variable CS : Type.
Variable cparse : CS -> bytes -> bool -> CS * (bytes * bytes * option cerr).
Variable max : Z.
Definition QInv (b : body CS) (c : client) (fut : bytes) : Prop :=
  bd_eof b = false /\ bd_chunked b = false /\ (len fut < bd_left b <= max)%Z /\ (bd_clen b <= max_alloc)%Z /\
  arrives c = fut /\ NotClosed c.
Lemma q_step : forall b c fut, QInv b c fut -> exists d e b' c',
  retrieve cparse max b c = ((d, e), b', c') /\ bd_pending b' = bd_pending b /\ bd_error b' = bd_error b /\
  ((e = None /\ exists fut', fut = d ++ fut' /\ QInv b' c' fut' /\ (csize c' < csize c)%nat) \/
   (e = Some BNet /\ d = [] /\ QInv b' c' fut)).
Proof.
  intros b c fut (He & Hc & Hl & Ha & Hs & Hn). unfold retrieve. rewrite He, Hc. unfold plain_read. pose proof (len_nonneg fut).
  replace (bd_left b =? 0)%Z with false by (symmetry; apply Z.eqb_neq; lia).
  destruct (read_not_closed c Hn) as [(d & c1 & Hr & Hn1 & Hst & Hp & H1 & H2 & H3) | (d & c1 & Hr & Hn1 & Hst)]; rewrite Hr.
  - replace (bd_left b >? max)%Z with false by (symmetry; rewrite Z.gtb_ltb; apply Z.ltb_ge; lia).
    subst fut. rewrite Hst, len_app in Hl. pose proof (len_nonneg (arrives c1)).
    replace (len d >=? bd_left b)%Z with false by (symmetry; rewrite Z.geb_leb; apply Z.leb_gt; lia).
    eexists _, _, _, _. split; [reflexivity|]. cbn. split; [reflexivity|]. split; [reflexivity|].
    left. split; [reflexivity|]. exists (arrives c1). split; [assumption|]. split; [|assumption].
    unfold QInv. cbn. pose proof (len_nonneg d). repeat split; auto; lia.
  - eexists _, _, _, _. split; [reflexivity|]. cbn. split; [reflexivity|]. split; [reflexivity|].
    right. split; [reflexivity|]. split; [reflexivity|]. unfold QInv. rewrite <- Hst. auto 10.
Qed.
Lemma q_init : forall b r c, enc_chunked (r_encoding r) = false -> (len (arrives c) < r_content_length r <= max)%Z ->
  (r_content_length r <= max_alloc)%Z -> NotClosed c -> QInv (body_init b r) c (arrives c).
Proof.
  intros b r c Hc Hl Ha Hn. unfold body_init. rewrite Hc. unfold QInv. cbn. pose proof (len_nonneg (arrives c)).
  unfold wrap_u64. rewrite Z.mod_small by (unfold max_alloc, two64 in *; lia). auto 10.
Qed.
End CutPlain.

Lemma mid_init : forall CS (Inv : body CS -> client -> bytes -> Prop) b r c fut, Inv (body_init b r) c fut -> Mid CS Inv fut (body_init b r) c.
Proof.
  intros CS Inv b r c fut H. exists [], fut. destruct (init_stash CS b r) as [-> ->]. repeat split; auto. apply piece_nil.
Qed.

Lemma fixed_cut : forall CS cparse max (b : body CS) r c ops os b' c',
  enc_chunked (r_encoding r) = false -> (len (arrives c) < r_content_length r <= max)%Z -> (r_content_length r <= max_alloc)%Z ->
  NotClosed c -> body_ops cparse max ops (body_init b r) c = (os, b', c') ->
  Forall (fun o => Incomplete o /\ piece_of (arrives c) (out_data o)) os /\
  (Uniform ops -> exists left, arrives c = concat (map out_data os) ++ left).
Proof.
  intros CS cparse max b r c ops os b' c' Hc Hl Ha Hn H. pose proof (q_init CS max b r c Hc Hl Ha Hn) as HI. split.
  - refine (cut_ops CS cparse max (QInv CS max) (q_step CS cparse max) _ _ _ _ ops (arrives c) _ _ os b' c' (mid_init _ _ _ _ _ _ HI) H).
    + intros b0 c0 f0 X. apply X.
    + intros b0 c0 f0 ? ? X. exact X.
    + intros b0 c0 f0 ? ? X. exact X.
    + intros b0 c0 f0 X. right. apply X.
  - intros Hu. destruct (init_stash CS b r) as [E1 E2].
    refine (cut_uniform CS cparse max (QInv CS max) (q_step CS cparse max) _ ops Hu _ _ _ os b' c' HI E1 E2 H).
    intros b0 c0 f0 ? ? X. exact X.
Qed.

(* ---- chunked ---- *)
Section CutChunked.
Variable CS : Type.
Variable cparse : CS -> bytes -> bool -> CS * (bytes * bytes * option cerr).
Variable encoded : bool -> bytes -> bytes -> Prop.
Variable fresh : CS -> Prop.
Variable inside : CS -> bool -> bytes -> bytes -> Prop.
Hypothesis ok : DecoderOk CS cparse encoded fresh inside.
Variable max : Z.
Hypothesis max_uint : (max < two64)%Z.
Definition KInv (b : body CS) (c : client) (left : bytes) : Prop :=
  bd_eof b = false /\ bd_chunked b = true /\ (0 <= bd_received b)%Z /\ (bd_received b + len left <= max)%Z /\ NotClosed c /\
  exists w missing, inside (bd_cs b) (bd_trailer b) w left /\ arrives c ++ missing = w /\ missing <> [].
Lemma arrives_unread : forall c d, cl_pending c = [] -> arrives (client_unread c d) = d ++ arrives c.
Proof. intros [net p out w] d H. unfold arrives. cbn in *. subst. reflexivity. Qed.
Lemma k_step : forall b c fut, KInv b c fut -> exists d e b' c',
  retrieve cparse max b c = ((d, e), b', c') /\ bd_pending b' = bd_pending b /\ bd_error b' = bd_error b /\
  ((e = None /\ exists fut', fut = d ++ fut' /\ KInv b' c' fut' /\ (csize c' < csize c)%nat) \/
   (e = Some BNet /\ d = [] /\ KInv b' c' fut)).
Proof.
  intros b c left (He & Hc & Hr0 & Hm & Hn & w & missing & Hin & Hs & Hmi). unfold retrieve. rewrite He, Hc. unfold chunked_read.
  destruct (read_not_closed c Hn) as [(data & c1 & Hr & Hn1 & Hst & Hp & H1 & H2 & H3) | (d & c1 & Hr & Hn1 & Hst)]; rewrite Hr.
  - destruct (dk_step _ _ _ _ _ ok _ _ _ _ data (arrives c1 ++ missing) [] Hin) as (s' & chunk & extra & e & Hcp & Hcase).
    { rewrite app_nil_r, <- Hs, Hst, <- app_assoc. reflexivity. }
    rewrite Hcp.
    destruct Hcase as [(-> & used & w' & d' & -> & Hw & Hw' & -> & Hprog & Hin') | (-> & Ew & _ & _)].
    + assert (Hlim : (two64 - 1 - bd_received b <? len chunk)%Z || (bd_received b + len chunk >? max)%Z = false).
      { rewrite len_app in Hm. pose proof (len_nonneg d'). apply orb_false_intro.
        - apply Z.ltb_ge. lia.
        - rewrite Z.gtb_ltb. apply Z.ltb_ge. lia. }
      rewrite Hlim. eexists _, _, _, _. split; [reflexivity|]. cbn.
      split; [reflexivity|]. split; [reflexivity|]. left. split; [reflexivity|]. exists d'. split; [reflexivity|].
      subst w. rewrite Hst, <- !app_assoc in Hw. apply app_inv_head in Hw.
      split.
      * unfold KInv. cbn. rewrite len_app in Hm. pose proof (len_nonneg chunk).
        repeat split; auto; try lia. exists w', missing. rewrite arrives_unread by assumption. rewrite <- app_assoc. auto.
      * unfold csize, client_unread in *. cbn. rewrite Hp in *. cbn [List.length] in *. rewrite app_length in *.
        destruct Hprog as [Hu|Hd].
        -- destruct used; [congruence|]. cbn [List.length] in *. lia.
        -- apply app_eq_nil in Hd as [-> ->]. cbn [List.length app] in *. specialize (H3 eq_refl). lia.
    + exfalso. subst w. rewrite Hst in Ew. apply (f_equal (@List.length byte)) in Ew. rewrite !app_length in Ew.
      destruct missing; [congruence|]. cbn [List.length] in Ew. lia.
  - eexists _, _, _, _. split; [reflexivity|]. cbn. split; [reflexivity|]. split; [reflexivity|].
    right. split; [reflexivity|]. split; [reflexivity|]. unfold KInv. repeat split; auto. exists w, missing. rewrite <- Hst. auto.
Qed.
End CutChunked.

Lemma chunked_cut : forall CS cparse encoded fresh inside max (b : body CS) r c w text missing ops os b' c',
  DecoderOk CS cparse encoded fresh inside -> fresh (bd_cs b) -> ChunkedRequest encoded max r w text ->
  arrives c ++ missing = w -> missing <> [] -> NotClosed c ->
  body_ops cparse max ops (body_init b r) c = (os, b', c') ->
  Forall (fun o => Incomplete o /\ piece_of text (out_data o)) os /\
  (Uniform ops -> exists left, text = concat (map out_data os) ++ left).
Proof.
  intros CS cparse encoded fresh inside max b r c w text missing ops os b' c' Hok Hf (Hc & He & Hm & Hx) Hw Hmi Hn H.
  assert (HI : KInv CS inside max (body_init b r) c text).
  { unfold body_init. rewrite Hc. unfold KInv. cbn. repeat split; auto; try lia. exists w, missing. split; [|auto].
    eapply dk_start; eauto. }
  pose proof (k_step CS cparse encoded fresh inside Hok max Hx) as K. split.
  - refine (cut_ops CS cparse max (KInv CS inside max) K _ _ _ _ ops text _ _ os b' c' (mid_init _ _ _ _ _ _ HI) H).
    + intros b0 c0 f0 X. apply X.
    + intros b0 c0 f0 ? ? X. exact X.
    + intros b0 c0 f0 ? ? X. exact X.
    + intros b0 c0 f0 X. left. apply X.
  - intros Hu. destruct (init_stash CS b r) as [E1 E2].
    refine (cut_uniform CS cparse max (KInv CS inside max) K _ ops Hu _ _ _ os b' c' HI E1 E2 H).
    intros b0 c0 f0 ? ? X. exact X.
Qed.

(* ---- callbacks ---- *)
Lemma lively_step : forall CS cparse max rest cs0 (b : body CS) c left, PInv CS max rest cs0 b c left -> left <> [] -> Lively c ->
  exists d e b' c', retrieve cparse max b c = ((d, e), b', c') /\ d <> [] /\
    ((e = None /\ Lively c' /\ exists left', left = d ++ left' /\ left' <> [] /\ PInv CS max rest cs0 b' c' left' /\ (csize c' < csize c)%nat) \/ (e = Some BEof /\ d = left)).
Proof.
  intros CS cparse max rest cs0 b c left HI Hne HL.
  destruct (plain_step CS cparse max rest cs0 b c left HI) as (d & e & b' & c' & Hr & _ & _ & _ & Hc).
  exists d, e, b', c'. split; [assumption|].
  destruct Hc as [(-> & left' & -> & Hd & HI' & Hs) | (-> & -> & _)]; [|auto].
  destruct HI as (He & Hch & Hl & _ & _ & Hst & _). unfold retrieve in Hr. rewrite He, Hch in Hr. unfold plain_read in Hr.
  assert (G : client_read c = ((d, None), c')).
  { destruct (bd_left b =? 0)%Z; [cbn in Hr; congruence|].
    destruct (client_read c) as ((d0, [ne|]), c1); [destruct ne; cbn in Hr; congruence|].
    destruct (bd_left b >? max)%Z; [cbn in Hr; congruence|].
    destruct (len d0 >=? bd_left b)%Z; cbn in Hr; congruence. }
  destruct c as [net p out w]. unfold client_read, Lively in *. cbn [cl_pending cl_net cl_out cl_wres] in *.
  destruct p as [|x p].
  - destruct net as [|ev net]; [discriminate|]. inversion HL as [|? ? H1 H2]; subst. injection G as -> <-. cbn [fst cl_net] in *. eauto 12.
  - injection G as <- <-. cbn [cl_net]. split; [discriminate|]. eauto 12.
Qed.
Lemma lively_callback_loop : forall CS cparse max rest cs0 n (b : body CS) c left (seen : list bytes) cb, PInv CS max rest cs0 b c left -> left <> [] -> Lively c ->
  Forall (fun p : bytes => p <> []) seen ->
  exists ps r b' c', callback_loop cparse max n cb seen b c = (ps, r, b', c') /\ Forall (fun p : bytes => p <> []) ps.
Proof.
  intros CS cparse max rest cs0 n. induction n as [|n IH]; intros b c left seen cb HI Hne HL Hs.
  - eexists _, _, _, _. split; [reflexivity|assumption].
  - destruct (lively_step CS cparse max rest cs0 b c left HI Hne HL) as (d & e & b1 & c1 & Hr & Hd & Hc).
    cbn [callback_loop]. rewrite Hr.
    assert (Hs' : Forall (fun p : bytes => p <> []) (seen ++ [d])) by (apply Forall_app; auto).
    destruct Hc as [(-> & HL' & left' & -> & Hl & HI' & _) | (-> & ->)].
    + destruct (cb (seen ++ [d])); [|eauto 8]. eapply IH; eauto.
    + eexists _, _, _, _. split; [reflexivity|assumption].
Qed.
Lemma callback_pieces : forall CS cparse max (b : body CS) r c text rest cb,
  FixedRequest max r text -> text <> [] -> stream c = text ++ rest -> Lively c ->
  exists ps res b' c', body_callback cparse max cb (body_init b r) c = (ps, res, b', c') /\
    Forall (fun p : bytes => p <> []) ps /\ exists left, text = concat ps ++ left.
Proof.
  intros CS cparse max b r c text rest cb HF Hne Hs HL.
  destruct (ad_callback _ _ _ _ _ _ _ (fixed_delivered CS cparse max b r c text rest HF Hs) cb) as (ps & res & b' & c' & E & Hc & _).
  exists ps, res, b', c'. split; [assumption|]. destruct HF as (H1 & H2 & H3 & H4).
  pose proof (p_init CS max rest (bd_cs b) b r c text eq_refl H1 H2 H3 H4 Hs) as HI. split.
  - destruct (lively_callback_loop CS cparse max rest (bd_cs b) (loop_fuel c) (body_init b r) c text [] cb HI Hne HL) as (ps2 & r2 & b2 & c2 & E2 & HF2); [constructor|].
    unfold body_callback in E. rewrite E2 in E. injection E as <- _ _ _. exact HF2.
  - destruct Hc as [(_ & <- & _) | (_ & _ & left & ->)]; [exists []; rewrite app_nil_r; reflexivity|eauto].
Qed.
