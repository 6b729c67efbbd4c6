(* Fixed-length and chunked bodies, limits, and independence of earlier requests. *)
From Verif Require Import M_Base M_Status M_Proto M_KeyValue M_Query M_Request M_Client M_Body S_Body L_Base L_Body.

Local Arguments client_unread : simpl never.
Local Arguments net_size : simpl never.
(* ---- fixed length ---- *)
Section Plain.
Variable CS : Type.
Variable cparse : CS -> bytes -> bool -> CS * (bytes * bytes * option cerr).
Variable max : Z.
Variable rest : bytes.
Variable cs0 : CS.
Definition PInv (b : body CS) (c : client) (left : bytes) : Prop :=
  bd_eof b = false /\ bd_chunked b = false /\ bd_left b = len left /\ (len left <= max)%Z /\
  (bd_clen b <= max_alloc)%Z /\ stream c = left ++ rest /\ bd_cs b = cs0.
Definition PEnd (b : body CS) (c : client) : Prop := bd_eof b = true /\ stream c = rest /\ bd_cs b = cs0.

Lemma plain_step : forall b c left, PInv b c left -> exists d e b' c',
  retrieve cparse max b c = ((d, e), b', c') /\
  bd_full b' = bd_full b /\ bd_pending b' = bd_pending b /\ bd_error b' = bd_error b /\
  ((e = None /\ exists left', left = d ++ left' /\ not_done left' /\ PInv b' c' left' /\ (csize c' < csize c)%nat) \/
   (e = Some BEof /\ d = left /\ PEnd b' c')).
Proof.
  intros b c left (He & Hc & Hl & Hm & Ha & Hs & Hcs). unfold retrieve. rewrite He, Hc. unfold plain_read.
  destruct (bd_left b =? 0)%Z eqn:E0.
  - apply Z.eqb_eq in E0. rewrite Hl in E0. apply len_zero in E0. subst left.
    eexists _, _, _, _. split; [reflexivity|]. cbn. repeat split; auto. right. repeat split; auto.
  - apply Z.eqb_neq in E0. assert (Hne : left <> []) by (intros ->; apply E0; rewrite Hl; reflexivity).
    destruct (client_read_stream c) as (d & c1 & Hr & Hst & Hp & H1 & H2 & H3).
    { rewrite Hs. destruct left; [congruence|discriminate]. }
    rewrite Hr. replace (bd_left b >? max)%Z with false by (symmetry; rewrite Z.gtb_ltb; apply Z.ltb_ge; lia).
    rewrite Hs in Hst. destruct (len d >=? bd_left b)%Z eqn:Ed.
    + rewrite Z.geb_leb in Ed. apply Z.leb_le in Ed. rewrite Hl in Ed.
      assert (Hsp : exists x, d = left ++ x /\ rest = x ++ stream c1).
      { destruct (app_split _ _ _ _ Hst) as [(x & -> & Hx)|(x & -> & Hx)].
        - rewrite len_app in Ed. pose proof (len_nonneg x). assert (x = []) by (apply len_zero; lia). subst x.
          exists []. rewrite !app_nil_r. split; [reflexivity|]. symmetry. exact Hx.
        - exists x. auto. }
      destruct Hsp as (x & -> & Hx).
      rewrite Hl. unfold len. rewrite Nat2Z.id, firstn_app, skipn_app, firstn_all, skipn_all, Nat.sub_diag.
      cbn [firstn skipn]. rewrite app_nil_r. cbn [app].
      eexists _, _, _, _. split; [reflexivity|]. cbn. split; [reflexivity|]. split; [reflexivity|]. split; [reflexivity|].
      right. split; [reflexivity|]. split; [reflexivity|]. split; [reflexivity|].
      rewrite stream_unread by assumption. auto.
    + rewrite Z.geb_leb in Ed. apply Z.leb_gt in Ed. rewrite Hl in Ed.
      assert (Hsp : exists x, left = d ++ x /\ stream c1 = x ++ rest).
      { destruct (app_split _ _ _ _ Hst) as [(x & -> & Hx)|(x & -> & Hx)].
        - exists x. auto.
        - rewrite len_app in Ed. pose proof (len_nonneg x). lia. }
      destruct Hsp as (x & -> & Hx). rewrite len_app in *.
      eexists _, _, _, _. split; [reflexivity|]. cbn. split; [reflexivity|]. split; [reflexivity|]. split; [reflexivity|].
      left. split; [reflexivity|]. exists x. split; [reflexivity|].
      split. { intros ->. cbn in Ed. lia. }
      split; [|assumption]. unfold PInv. cbn. pose proof (len_nonneg d). repeat split; auto; lia.
Qed.

Lemma p_inv_eof : forall b c left, PInv b c left -> bd_eof b = false.
Proof. intros b c left H. apply H. Qed.
Lemma p_end_eof : forall b c, PEnd b c -> bd_eof b = true.
Proof. intros b c H. apply H. Qed.
Lemma p_inv_full : forall b c left f cap, PInv b c left -> PInv (set_full f cap b) c left.
Proof. intros b c left f cap H. exact H. Qed.
Lemma p_end_full : forall b c f cap, PEnd b c -> PEnd (set_full f cap b) c.
Proof. intros b c f cap H. exact H. Qed.
Lemma p_inv_stash : forall b c left p e, PInv b c left -> PInv (set_stash p e b) c left.
Proof. intros b c left p e H. exact H. Qed.
Lemma p_end_stash : forall b c p e, PEnd b c -> PEnd (set_stash p e b) c.
Proof. intros b c p e H. exact H. Qed.
Lemma p_inv_alloc : forall b c left, PInv b c left -> bd_chunked b = true \/ (bd_clen b <= max_alloc)%Z.
Proof. intros b c left H. right. apply H. Qed.

Lemma p_init : forall b r c text, bd_cs b = cs0 -> enc_chunked (r_encoding r) = false ->
  r_content_length r = len text -> (len text <= max)%Z -> (len text <= max_alloc)%Z ->
  stream c = text ++ rest -> PInv (body_init b r) c text.
Proof.
  intros b r c text Hcs Hc Hl Hm Ha Hs. unfold body_init. rewrite Hc. unfold PInv. cbn. rewrite Hl.
  repeat split; auto. unfold wrap_u64. rewrite Z.mod_small; [reflexivity|].
  pose proof (len_nonneg text). unfold max_alloc, two64 in *. lia.
Qed.
End Plain.

(* ---- chunked ---- *)
Section Chunked.
Variable CS : Type.
Variable cparse : CS -> bytes -> bool -> CS * (bytes * bytes * option cerr).
Variable encoded : bool -> bytes -> bytes -> Prop.
Variable fresh : CS -> Prop.
Variable inside : CS -> bool -> bytes -> bytes -> Prop.
Hypothesis ok : DecoderOk CS cparse encoded fresh inside.
Variable max : Z.
Hypothesis max_uint : (max < two64)%Z.
Variable rest : bytes.
Definition CInv (b : body CS) (c : client) (left : bytes) : Prop :=
  bd_eof b = false /\ bd_chunked b = true /\ (0 <= bd_received b)%Z /\ (bd_received b + len left <= max)%Z /\
  exists w, w <> [] /\ inside (bd_cs b) (bd_trailer b) w left /\ stream c = w ++ rest.
Definition CEnd (b : body CS) (c : client) : Prop := bd_eof b = true /\ stream c = rest /\ fresh (bd_cs b).

Lemma chunked_step : forall b c left, CInv b c left -> exists d e b' c',
  retrieve cparse max b c = ((d, e), b', c') /\
  bd_full b' = bd_full b /\ bd_pending b' = bd_pending b /\ bd_error b' = bd_error b /\
  ((e = None /\ exists left', left = d ++ left' /\ any_text left' /\ CInv b' c' left' /\ (csize c' < csize c)%nat) \/
   (e = Some BEof /\ d = left /\ CEnd b' c')).
Proof.
  intros b c left (He & Hc & Hr0 & Hm & w & Hw & Hin & Hs). unfold retrieve. rewrite He, Hc. unfold chunked_read.
  destruct (client_read_stream c) as (data & c1 & Hr & Hst & Hp & H1 & H2 & H3).
  { rewrite Hs. destruct w; [congruence|discriminate]. }
  rewrite Hr. rewrite Hs in Hst.
  destruct (dk_step _ _ _ _ _ ok _ _ _ _ data (stream c1) rest Hin) as (s' & chunk & extra & e & Hcp & Hcase).
  { symmetry. exact Hst. }
  rewrite Hcp.
  assert (Hlim : forall t, left = chunk ++ t ->
     (two64 - 1 - bd_received b <? len chunk)%Z || (bd_received b + len chunk >? max)%Z = false).
  { intros t ->. rewrite len_app in Hm. pose proof (len_nonneg t). apply orb_false_intro.
    - apply Z.ltb_ge. lia.
    - rewrite Z.gtb_ltb. apply Z.ltb_ge. lia. }
  destruct Hcase as [(-> & used & w' & d' & -> & -> & Hw' & -> & Hprog & Hin') | (-> & -> & -> & Hf)].
  - rewrite (Hlim _ eq_refl). eexists _, _, _, _. split; [reflexivity|]. cbn.
    split; [reflexivity|]. split; [reflexivity|]. split; [reflexivity|].
    left. split; [reflexivity|]. exists d'. split; [reflexivity|]. split; [exact I|].
    rewrite <- app_assoc in Hst. rewrite <- app_assoc in Hst. apply app_inv_head in Hst.
    split.
    + unfold CInv. cbn. rewrite len_app in Hm. pose proof (len_nonneg chunk).
      repeat split; auto; try lia. exists w'. rewrite stream_unread by assumption. auto.
    + unfold csize, client_unread in *. cbn. rewrite Hp in *. cbn [List.length] in *. rewrite app_length in *.
      destruct Hprog as [Hu|Hd].
      * destruct used; [congruence|]. cbn [List.length] in *. lia.
      * apply app_eq_nil in Hd as [-> ->]. cbn [List.length app] in *. specialize (H3 eq_refl). lia.
  - rewrite (Hlim [] (eq_sym (app_nil_r _))). eexists _, _, _, _. split; [reflexivity|]. cbn.
    split; [reflexivity|]. split; [reflexivity|]. split; [reflexivity|].
    right. split; [reflexivity|]. split; [reflexivity|]. split; [reflexivity|].
    rewrite stream_unread by assumption. rewrite <- app_assoc in Hst. apply app_inv_head in Hst. auto.
Qed.

Lemma c_inv_eof : forall b c left, CInv b c left -> bd_eof b = false.
Proof. intros b c left H. apply H. Qed.
Lemma c_end_eof : forall b c, CEnd b c -> bd_eof b = true.
Proof. intros b c H. apply H. Qed.
Lemma c_inv_full : forall b c left f cap, CInv b c left -> CInv (set_full f cap b) c left.
Proof. intros b c left f cap H. exact H. Qed.
Lemma c_end_full : forall b c f cap, CEnd b c -> CEnd (set_full f cap b) c.
Proof. intros b c f cap H. exact H. Qed.
Lemma c_inv_stash : forall b c left p e, CInv b c left -> CInv (set_stash p e b) c left.
Proof. intros b c left p e H. exact H. Qed.
Lemma c_end_stash : forall b c p e, CEnd b c -> CEnd (set_stash p e b) c.
Proof. intros b c p e H. exact H. Qed.
Lemma c_inv_alloc : forall b c left, CInv b c left -> bd_chunked b = true \/ (bd_clen b <= max_alloc)%Z.
Proof. intros b c left H. left. apply H. Qed.

Lemma c_init : forall b r c w text, fresh (bd_cs b) -> enc_chunked (r_encoding r) = true ->
  encoded (enc_trailer (r_encoding r)) w text -> (len text <= max)%Z ->
  stream c = w ++ rest -> CInv (body_init b r) c text.
Proof.
  intros b r c w text Hf Hc Hw Hm Hs. unfold body_init. rewrite Hc. unfold CInv. cbn.
  repeat split; auto; try lia. exists w.
  split; [eapply dk_nonempty; eauto|]. split; [eapply dk_start; eauto|assumption].
Qed.

(* more than the limit *)
Lemma chunked_large : forall n b c text w, bd_eof b = false -> bd_chunked b = true -> (0 <= bd_received b <= max)%Z ->
  (bd_received b + len text > max)%Z -> w <> [] -> inside (bd_cs b) (bd_trailer b) w text ->
  stream c = w ++ rest -> (csize c < n)%nat ->
  exists b' c', bytes_loop cparse max n b c = (BRErr BTooLarge, b', c').
Proof.
  induction n as [|n IH]; intros b c text w He Hc Hr0 Hm Hw Hin Hs Hn; [lia|].
  cbn [bytes_loop]. unfold retrieve. rewrite He, Hc. unfold chunked_read.
  destruct (client_read_stream c) as (data & c1 & Hr & Hst & Hp & H1 & H2 & H3).
  { rewrite Hs. destruct w; [congruence|discriminate]. }
  rewrite Hr. rewrite Hs in Hst.
  destruct (dk_step _ _ _ _ _ ok _ _ _ _ data (stream c1) rest Hin) as (s' & chunk & extra & e & Hcp & Hcase).
  { symmetry. exact Hst. }
  rewrite Hcp.
  destruct ((two64 - 1 - bd_received b <? len chunk)%Z || (bd_received b + len chunk >? max)%Z) eqn:Elim.
  - destruct Hcase as [(-> & _) | (-> & _)]; cbn; eauto.
  - apply orb_false_elim in Elim as [El1 El2]. rewrite Z.gtb_ltb in El2. apply Z.ltb_ge in El2.
    pose proof (len_nonneg chunk).
    destruct Hcase as [(-> & used & w' & d' & -> & -> & Hw' & -> & Hprog & Hin') | (-> & -> & -> & Hf)]; [|lia].
    cbn [berr_eof snd]. rewrite len_app in Hm.
    rewrite <- !app_assoc in Hst. apply app_inv_head in Hst.
    apply IH with (text := d') (w := w'); cbn; auto; try lia.
    + rewrite stream_unread by assumption. auto.
    + unfold csize, client_unread in *. cbn. rewrite Hp in *. cbn [List.length] in *. rewrite app_length in *.
      destruct Hprog as [Hu|Hd].
      * destruct used; [congruence|]. cbn [List.length] in *. lia.
      * apply app_eq_nil in Hd as [-> ->]. cbn [List.length app] in *. specialize (H3 eq_refl). lia.
Qed.
End Chunked.
