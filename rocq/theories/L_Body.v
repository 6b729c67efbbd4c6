(* Lemmas about clients and bodies. *)
From Verif Require Import M_Base M_Status M_Proto M_KeyValue M_Query M_Request M_Client M_Body S_Body L_Base.

Definition csize (c : client) : nat := (List.length (cl_pending c) + net_size (cl_net c))%nat.

Lemma client_read_stream : forall c, stream c <> [] ->
  exists d c', client_read c = ((d, None), c') /\ stream c = d ++ stream c' /\ cl_pending c' = [] /\
    (csize c' + List.length d <= csize c)%nat /\ (csize c' < csize c)%nat /\
    (d = [] -> csize c' + List.length d < csize c)%nat.
Proof.
  intros [net p out w] H. unfold stream, client_read, csize in *. cbn in *.
  destruct p as [|x p].
  - destruct net as [|[d e] net]; cbn in *; [congruence|].
    destruct e; [congruence|]. eexists _, _. split; [reflexivity|]. cbn. repeat split; auto; lia.
  - eexists _, _. split; [reflexivity|]. cbn. repeat split; try lia. discriminate.
Qed.

Lemma client_read_size : forall c d e c', client_read c = ((d, e), c') ->
  cl_net c <> [] \/ cl_pending c <> [] ->
  (csize c' + List.length d <= csize c)%nat /\ (csize c' < csize c)%nat /\ cl_pending c' = [].
Proof.
  intros [net p out w] d e c' H Hne. unfold client_read, csize in *. cbn in *.
  destruct p as [|x p].
  - destruct net as [|[d0 e0] net]; [destruct Hne; congruence|]. inversion H; subst. cbn. repeat split; lia.
  - inversion H; subst. cbn. repeat split; lia.
Qed.

Lemma stream_unread : forall c d, cl_pending c = [] -> stream (client_unread c d) = d ++ stream c.
Proof. intros [net p out w] d H. unfold stream. cbn in *. subst. reflexivity. Qed.

Lemma app_split : forall (a b c d : bytes), a ++ b = c ++ d ->
  (exists x, a = c ++ x /\ d = x ++ b) \/ (exists x, c = a ++ x /\ b = x ++ d).
Proof.
  induction a as [|x a IH]; intros b c d H.
  - right. exists c. auto.
  - destruct c as [|y c].
    + left. exists (x :: a). auto.
    + cbn in H. inversion H; subst. destruct (IH _ _ _ H2) as [(z & -> & ->) | (z & -> & ->)].
      * left. exists z. auto.
      * right. exists z. auto.
Qed.

Lemma len_app : forall a b, len (a ++ b) = (len a + len b)%Z.
Proof. intros. unfold len. rewrite app_length. lia. Qed.
Lemma len_nonneg : forall a, (0 <= len a)%Z.
Proof. intros. unfold len. lia. Qed.
Lemma len_zero : forall a, len a = 0%Z -> a = [].
Proof. intros [|x a] H; [reflexivity|]. unfold len in H. cbn in H. lia. Qed.

Section Generic.
Variable CS : Type.
Variable cparse : CS -> bytes -> bool -> CS * (bytes * bytes * option cerr).
Variable max : Z.
Variable Inv : body CS -> client -> bytes -> Prop.
Variable End : body CS -> client -> Prop.
Variable more : bytes -> Prop.
Notation retrieve := (retrieve cparse max).

Hypothesis step : forall b c left, Inv b c left -> exists d e b' c',
  retrieve b c = ((d, e), b', c') /\
  bd_full b' = bd_full b /\ bd_pending b' = bd_pending b /\ bd_error b' = bd_error b /\
  ((e = None /\ exists left', left = d ++ left' /\ more left' /\ Inv b' c' left' /\ (csize c' < csize c)%nat) \/
   (e = Some BEof /\ d = left /\ End b' c')).
Hypothesis inv_eof : forall b c left, Inv b c left -> bd_eof b = false.
Hypothesis end_eof : forall b c, End b c -> bd_eof b = true.
Hypothesis inv_full : forall b c left f cap, Inv b c left -> Inv (set_full f cap b) c left.
Hypothesis end_full : forall b c f cap, End b c -> End (set_full f cap b) c.
Hypothesis inv_stash : forall b c left p e, Inv b c left -> Inv (set_stash p e b) c left.
Hypothesis end_stash : forall b c p e, End b c -> End (set_stash p e b) c.
Hypothesis inv_alloc : forall b c left, Inv b c left -> bd_chunked b = true \/ (bd_clen b <= max_alloc)%Z.

Lemma bytes_loop_ok : forall n b c left, Inv b c left -> (csize c < n)%nat ->
  exists b' c', bytes_loop cparse max n b c = (BROk (bd_full b ++ left), b', c') /\ End b' c' /\
    bd_full b' = bd_full b ++ left.
Proof.
  induction n as [|n IH]; intros b c left HI Hn; [lia|].
  destruct (step _ _ _ HI) as (d & e & b1 & c1 & Hr & Hf & _ & _ & Hcase).
  cbn [bytes_loop]. rewrite Hr. destruct Hcase as [(-> & left' & -> & _ & HI' & Hsz) | (-> & -> & HE)].
  - destruct (IH (set_full (bd_full b1 ++ d) (Z.max (bd_cap b1) (len (bd_full b1 ++ d))) b1) c1 left')
      as (b' & c' & Hl & HE & Hfull); [apply inv_full; assumption|lia|].
    exists b', c'. rewrite Hl. cbn [bd_full set_full] in *. rewrite Hf in *.
    rewrite <- app_assoc in *. auto.
  - eexists _, _. cbn [bd_full set_full]. rewrite Hf. split; [reflexivity|]. split; [apply end_full; assumption|].
    reflexivity.
Qed.

Lemma bytes_ok : forall b c left, Inv b c left ->
  exists b' c', body_bytes cparse max b c = (BROk left, b', c') /\ End b' c' /\ bd_full b' = left.
Proof.
  intros b c left HI. unfold body_bytes. rewrite (inv_eof _ _ _ HI).
  assert (Hg : negb (bd_chunked b) && (bd_cap b <? bd_clen b)%Z && (bd_clen b >? max_alloc)%Z = false).
  { destruct (inv_alloc _ _ _ HI) as [-> | Hl]; [reflexivity|].
    replace (bd_clen b >? max_alloc)%Z with false by (symmetry; apply Z.gtb_ltb || idtac; rewrite Z.gtb_ltb; apply Z.ltb_ge; lia).
    rewrite andb_false_r. reflexivity. }
  rewrite Hg.
  match goal with |- context [bytes_loop _ _ _ ?b0 _] => destruct (bytes_loop_ok (loop_fuel c) b0 c left) as (b' & c' & Hl & HE & Hf) end.
  - apply inv_full. assumption.
  - unfold loop_fuel, csize. lia.
  - exists b', c'. cbn [bd_full set_full app] in *. auto.
Qed.

Lemma callback_loop_ok : forall n b c left seen cb, Inv b c left -> (csize c < n)%nat ->
  exists ps r b' c', callback_loop cparse max n cb seen b c = (seen ++ ps, r, b', c') /\
    ((r = Some (Some BEof) /\ concat ps = left /\ End b' c' /\ (forall k, (0 < k <= List.length ps)%nat -> cb (seen ++ firstn k ps) = true)) \/
     (r = None /\ ps <> [] /\ cb (seen ++ ps) = false /\ exists left', left = concat ps ++ left' /\
        (Inv b' c' left' \/ (left' = [] /\ End b' c')))).
Proof.
  induction n as [|n IH]; intros b c left seen cb HI Hn; [lia|].
  destruct (step _ _ _ HI) as (d & e & b1 & c1 & Hr & _ & _ & _ & Hcase).
  cbn [callback_loop]. rewrite Hr. destruct Hcase as [(-> & left' & -> & _ & HI' & Hsz) | (-> & -> & HE)].
  - destruct (cb (seen ++ [d])) eqn:Ecb.
    + destruct (IH _ _ _ (seen ++ [d]) cb HI') as (ps & r & b' & c' & Hl & Hc); [lia|].
      exists (d :: ps), r, b', c'. rewrite Hl, <- app_assoc. split; [reflexivity|].
      destruct Hc as [(-> & <- & HE & Hall) | (-> & Hne & Hf & l' & -> & Hst)].
      * left. split; [reflexivity|]. split; [reflexivity|]. split; [assumption|].
        intros k Hk. destruct k as [|k]; [lia|]. cbn [firstn].
        destruct k as [|k]; [exact Ecb|].
        specialize (Hall (S k)). rewrite <- app_assoc in Hall. apply Hall. cbn in Hk. lia.
      * right. split; [reflexivity|]. split; [discriminate|].
        rewrite <- app_assoc in Hf. split; [assumption|]. exists l'. cbn. rewrite <- app_assoc. auto.
    + exists [d], None, b1, c1. split; [reflexivity|]. right. split; [reflexivity|]. split; [discriminate|].
      split; [assumption|]. exists left'. cbn. rewrite app_nil_r. auto.
  - exists [left], (if cb (seen ++ [left]) then Some (Some BEof) else None), b1, c1. split; [reflexivity|].
    destruct (cb (seen ++ [left])) eqn:Ecb.
    + left. cbn. rewrite app_nil_r. split; [reflexivity|]. split; [reflexivity|]. split; [assumption|].
      intros [|[|k]] Hk; cbn in *; auto; lia.
    + right. split; [reflexivity|]. split; [discriminate|]. split; [reflexivity|]. exists [].
      cbn. rewrite !app_nil_r. auto.
Qed.

Lemma discard_loop_ok : forall n b c left, Inv b c left -> (csize c < n)%nat ->
  exists b' c', discard_loop cparse max n b c = (Some None, b', c') /\ End b' c'.
Proof.
  induction n as [|n IH]; intros b c left HI Hn; [lia|].
  destruct (step _ _ _ HI) as (d & e & b1 & c1 & Hr & _ & _ & _ & Hcase).
  cbn [discard_loop]. rewrite (inv_eof _ _ _ HI), Hr.
  destruct Hcase as [(-> & left' & -> & _ & HI' & Hsz) | (-> & -> & HE)].
  - apply (IH _ _ _ HI'). lia.
  - eauto.
Qed.
Lemma discard_ok : forall b c left, Inv b c left ->
  exists b' c', body_discard cparse max b c = (Some None, b', c') /\ End b' c'.
Proof. intros. apply (discard_loop_ok _ _ _ left); auto. unfold loop_fuel, csize. lia. Qed.
Lemma discard_end : forall b c, End b c -> body_discard cparse max b c = (Some None, b, c).
Proof. intros. unfold body_discard, loop_fuel. cbn [discard_loop]. rewrite (end_eof _ _ H). reflexivity. Qed.

(* every accessor leaves the body either in the middle of its text or at its end *)
Definition At (text : bytes) (b : body CS) (c : client) : Prop :=
  (exists left pre, text = pre ++ left /\ Inv b c left) \/ End b c.

Lemma read_at : forall n b c text, At text b c ->
  forall o b' c', body_read cparse max n b c = (o, b', c') -> At text b' c'.
Proof.
  intros n b c text HA o b' c' H. unfold body_read in H.
  assert (Hkeep : forall p e, At text (set_stash p e b) c).
  { intros p e. destruct HA as [(l & pre & Ht & HI)|HE]; [left; exists l, pre; auto|right; auto]. }
  destruct (bd_pending b) as [|x p] eqn:Ep; [destruct (bd_error b) as [e|] eqn:Ee|].
  - inversion H; subst. apply Hkeep.
  - destruct HA as [(l & pre & Ht & HI)|HE].
    + destruct (step _ _ _ HI) as (d & e & b1 & c1 & Hr & _ & _ & _ & Hcase). rewrite Hr in H.
      inversion H; subst.
      destruct Hcase as [(-> & left' & -> & _ & HI' & Hsz) | (-> & -> & HE)].
      * left. exists left', (pre ++ d). rewrite <- app_assoc. auto.
      * right. auto.
    + unfold M_Body.retrieve in H. rewrite (end_eof _ _ HE) in H. inversion H; subst. right. auto.
  - inversion H; subst. apply Hkeep.
Qed.

Lemma op_at : forall op b c text, At text b c ->
  forall o b' c', body_op cparse max op b c = (o, b', c') -> At text b' c'.
Proof.
  intros op b c text HA o b' c' H. destruct op; cbn [body_op] in H.
  - destruct HA as [(l & pre & Ht & HI)|HE].
    + destruct (bytes_ok _ _ _ HI) as (b1 & c1 & Hb & HE & _). rewrite Hb in H. inversion H; subst. right. auto.
    + unfold body_bytes in H. rewrite (end_eof _ _ HE) in H. inversion H; subst. right. auto.
  - destruct HA as [(l & pre & Ht & HI)|HE].
    + destruct (step _ _ _ HI) as (d & e & b1 & c1 & Hr & _ & _ & _ & Hcase). rewrite Hr in H. inversion H; subst.
      destruct Hcase as [(-> & left' & -> & _ & HI' & Hsz) | (-> & -> & HE)].
      * left. exists left', (pre ++ d). rewrite <- app_assoc. auto.
      * right. auto.
    + unfold M_Body.retrieve in H. rewrite (end_eof _ _ HE) in H. inversion H; subst. right. auto.
  - destruct (body_read cparse max n b c) as [[[d e] b1] c1] eqn:Er. inversion H; subst.
    eapply read_at; eauto.
  - destruct HA as [(l & pre & Ht & HI)|HE].
    + unfold body_callback in H.
      destruct (callback_loop_ok (loop_fuel c) b c l [] cb HI) as (ps & r & b1 & c1 & Hl & Hc); [unfold loop_fuel, csize; lia|].
      rewrite Hl in H. inversion H; subst.
      destruct Hc as [(_ & _ & HE & _) | (_ & _ & _ & l' & -> & [HI'|[-> HE]])].
      * right. auto.
      * left. exists l', (pre ++ concat ps). rewrite <- app_assoc. auto.
      * right. auto.
    + unfold body_callback, loop_fuel in H. cbn [callback_loop] in H. unfold M_Body.retrieve in H.
      rewrite (end_eof _ _ HE) in H. inversion H; subst. right. auto.
  - destruct HA as [(l & pre & Ht & HI)|HE].
    + destruct (discard_ok _ _ _ HI) as (b1 & c1 & Hd & HE). rewrite Hd in H. inversion H; subst. right. auto.
    + rewrite (discard_end _ _ HE) in H. inversion H; subst. right. auto.
Qed.

Lemma ops_at : forall ops b c text, At text b c ->
  forall os b' c', body_ops cparse max ops b c = (os, b', c') -> At text b' c'.
Proof.
  induction ops as [|op ops IH]; intros b c text HA os b' c' H; cbn [body_ops] in H.
  - inversion H; subst. assumption.
  - destruct (body_op cparse max op b c) as [[o b1] c1] eqn:Eo.
    destruct (body_ops cparse max ops b1 c1) as [[os1 b2] c2] eqn:Eos. inversion H; subst.
    eapply IH; [|eassumption]. eapply op_at; eauto.
Qed.

Lemma discard_at : forall text b c, At text b c ->
  exists b' c', body_discard cparse max b c = (Some None, b', c') /\ End b' c'.
Proof.
  intros text b c [(l & pre & _ & HI)|HE]; [eapply discard_ok; eauto|].
  exists b, c. split; [apply discard_end|]; assumption.
Qed.

(* Retrieve, any number of times *)
Lemma retrieves_end : forall k b c, End b c ->
  body_ops cparse max (repeat ORetrieve k) b c = (repeat (RPiece [] (Some BEof)) k, b, c).
Proof.
  induction k as [|k IH]; intros b c HE; [reflexivity|]. cbn [repeat body_ops body_op].
  unfold M_Body.retrieve at 1. rewrite (end_eof _ _ HE), (IH _ _ HE). reflexivity.
Qed.
Lemma delivers_end : forall k, Delivers more [] (map as_piece (repeat (RPiece [] (Some BEof)) k)) [].
Proof. induction k as [|k IH]; cbn; [reflexivity|]. exists []. auto. Qed.

Lemma retrieves_ok : forall k b c left, Inv b c left ->
  exists outs b' c' left', body_ops cparse max (repeat ORetrieve k) b c = (outs, b', c') /\
    Delivers more left (map as_piece outs) left' /\
    (Inv b' c' left' \/ (End b' c' /\ left' = [])) /\
    ((k > csize c)%nat -> left' = [] /\ End b' c').
Proof.
  induction k as [|k IH]; intros b c left HI.
  - exists [], b, c, left. repeat split; auto; lia.
  - cbn [repeat body_ops body_op].
    destruct (step _ _ _ HI) as (d & e & b1 & c1 & Hr & _ & _ & _ & Hcase). rewrite Hr.
    destruct Hcase as [(-> & left' & -> & Hm & HI' & Hsz) | (-> & -> & HE)].
    + destruct (IH b1 c1 left') as (outs & b' & c' & l' & Ho & Hd & Hst & Hk); [assumption|].
      rewrite Ho. eexists _, _, _, l'. split; [reflexivity|]. split; [|split; [assumption|intro; apply Hk; lia]].
      cbn. exists left'. auto.
    + rewrite (retrieves_end k _ _ HE). eexists _, _, _, []. split; [reflexivity|].
      split; [|auto]. cbn. exists []. rewrite app_nil_r. split; [reflexivity|]. split; [auto|]. apply delivers_end.
Qed.

(* Read with any buffer sizes *)
Definition Buffered (b : body CS) (c : client) (left : bytes) : Prop :=
  (bd_error b = None /\ exists l, left = bd_pending b ++ l /\ (bd_pending b <> [] -> more l) /\ Inv b c l) \/
  (bd_error b = Some BEof /\ left = bd_pending b /\ End b c).
Hypothesis more_app : forall d t, more t -> more (d ++ t).

Lemma read_ok : forall n b c left, Buffered b c left ->
  exists d e b' c' left', body_read cparse max n b c = ((d, e), b', c') /\ left = d ++ left' /\
    ((e = None /\ (left' <> [] \/ more left')) \/ (e = Some BEof /\ left' = [] /\ End b' c')) /\
    Buffered b' c' left'.
Proof.
  intros n b c left HB. unfold body_read, Buffered in *.
  destruct HB as [(He & l & -> & Hm & HI) | (He & -> & HE)].
  - rewrite He. destruct (bd_pending b) as [|x p] eqn:Ep.
    + destruct (step _ _ _ HI) as (d & e & b1 & c1 & Hr & _ & _ & _ & Hcase). rewrite Hr.
      cbn [set_stash bd_pending bd_error].
      destruct Hcase as [(-> & left' & -> & Hm' & HI' & Hsz) | (-> & -> & HE)].
      * eexists _, _, _, _, (skipn n d ++ left'). split; [reflexivity|]. cbn [app]. rewrite app_assoc, firstn_skipn.
        split; [reflexivity|]. split.
        -- left. split; [destruct (skipn n d); reflexivity|]. right. apply more_app. assumption.
        -- left. split; [reflexivity|]. exists left'. split; [reflexivity|]. split; [auto|]. apply inv_stash, inv_stash. assumption.
      * eexists _, _, _, _, (skipn n l). split; [reflexivity|]. cbn [app]. rewrite firstn_skipn.
        split; [reflexivity|]. split.
        -- destruct (skipn n l) eqn:Es; [right|left].
           ++ split; [reflexivity|]. split; [reflexivity|]. apply end_stash, end_stash. assumption.
           ++ split; [reflexivity|]. left. discriminate.
        -- right. split; [reflexivity|]. split; [reflexivity|]. apply end_stash, end_stash. assumption.
    + rewrite Ep, He. cbn [set_stash bd_pending bd_error].
      eexists _, _, _, _, (skipn n (x :: p) ++ l). split; [reflexivity|].
      rewrite app_assoc, firstn_skipn. split; [reflexivity|]. split.
      * left. split; [destruct (skipn n (x :: p)); reflexivity|]. right. apply more_app. apply Hm. discriminate.
      * left. split; [reflexivity|]. exists l. split; [reflexivity|]. split; [intro; apply Hm; discriminate|].
        apply inv_stash. assumption.
  - assert (Hb : match bd_pending b, bd_error b with
      | [], None => let '((d, e), b', c') := retrieve b c in (set_stash d e b', c')
      | _, _ => (b, c) end = (b, c)) by (rewrite He; destruct (bd_pending b); reflexivity).
    rewrite Hb, He. cbn [set_stash bd_pending bd_error].
    eexists _, _, _, _, (skipn n (bd_pending b)). split; [reflexivity|]. rewrite firstn_skipn. split; [reflexivity|]. split.
    + destruct (skipn n (bd_pending b)) eqn:Es; [right|left].
      * split; [reflexivity|]. split; [reflexivity|]. apply end_stash. assumption.
      * split; [reflexivity|]. left. discriminate.
    + right. split; [reflexivity|]. split; [reflexivity|]. apply end_stash. assumption.
Qed.

Hypothesis more_nonempty : forall t, t <> [] -> more t.

Lemma reads_ok : forall ns b c left, Buffered b c left ->
  exists outs b' c' left', body_ops cparse max (map ORead ns) b c = (outs, b', c') /\
    Delivers more left (map as_piece outs) left' /\ Buffered b' c' left'.
Proof.
  induction ns as [|n ns IH]; intros b c left HB.
  - exists [], b, c, left. cbn. auto.
  - destruct (read_ok n _ _ _ HB) as (d & e & b1 & c1 & l1 & Hr & -> & He & HB').
    destruct (IH _ _ _ HB') as (outs & b' & c' & l' & Ho & Hd & HB2).
    cbn [map body_ops body_op]. rewrite Hr, Ho. eexists _, _, _, l'. split; [reflexivity|].
    split; [|assumption]. cbn. exists l1. split; [reflexivity|]. split; [|assumption].
    destruct He as [(-> & [Hne|Hm]) | (-> & -> & _)]; auto.
Qed.

(* reading with non-empty buffers gets to the end *)
Definition rsize (b : body CS) (c : client) (left : bytes) : nat :=
  (List.length left + match bd_error b with None => S (csize c) | Some _ => 0 end)%nat.

Lemma firstn_pos : forall n (l : bytes), (0 < n)%nat -> l <> [] -> (List.length (skipn n l) < List.length l)%nat.
Proof. intros [|n] [|x l] Hn Hl; try lia; try congruence. cbn. pose proof (skipn_length n l). lia. Qed.

Lemma read_measure : forall n b c left, Buffered b c left -> (0 < n)%nat ->
  exists d e b' c' left', body_read cparse max n b c = ((d, e), b', c') /\ Buffered b' c' left' /\
    left = d ++ left' /\ (e = Some BEof -> left' = [] /\ End b' c') /\
    (e = Some BEof \/ rsize b' c' left' < rsize b c left)%nat.
Proof.
  intros n b c left HB Hn.
  destruct (read_ok n _ _ _ HB) as (d & e & b' & c' & l' & Hr & Hl & He & HB').
  exists d, e, b', c', l'. split; [assumption|]. split; [assumption|]. split; [assumption|].
  split. { intros ->. destruct He as [[H _]|(_ & -> & HE)]; [discriminate|auto]. }
  destruct He as [(-> & _)|(-> & _)]; [right|auto].
  unfold body_read in Hr. unfold Buffered in HB. unfold rsize.
  destruct HB as [(He0 & l & -> & _ & HI) | (He0 & -> & HE)].
  - rewrite He0 in *. destruct (bd_pending b) as [|x p] eqn:Ep.
    + destruct (step _ _ _ HI) as (d1 & e1 & b1 & c1 & Hr1 & _ & _ & _ & Hcase). rewrite Hr1 in Hr.
      cbn [set_stash bd_pending bd_error] in Hr. inversion Hr; subst. cbn [set_stash bd_pending bd_error].
      assert (Hlen := f_equal (@List.length byte) Hl). rewrite !app_length in Hlen. cbn [app List.length] in *.
      destruct Hcase as [(-> & left' & -> & Hm' & HI' & Hsz) | (-> & -> & HE)]; lia.
    + rewrite Ep, He0 in Hr. inversion Hr; subst. cbn [set_stash bd_pending bd_error].
      assert (Hlen := f_equal (@List.length byte) Hl). rewrite !app_length in Hlen.
      pose proof (firstn_pos n (x :: p) Hn ltac:(discriminate)).
      pose proof (skipn_length n (x :: p)). pose proof (firstn_length n (x :: p)). rewrite ?He0, ?app_length in *. destruct (skipn n (x :: p)); lia.
  - assert (Hb : match bd_pending b, bd_error b with
      | [], None => let '((d, e), b', c') := retrieve b c in (set_stash d e b', c')
      | _, _ => (b, c) end = (b, c)) by (rewrite He0; destruct (bd_pending b); reflexivity).
    rewrite Hb in Hr. inversion Hr; subst. cbn [set_stash bd_pending bd_error]. rewrite He0 in *.
    destruct (skipn n (bd_pending b)) eqn:Es; [discriminate|].
    assert (Hlen := f_equal (@List.length byte) Hl). rewrite !app_length in Hlen.
    assert (bd_pending b <> []) by (intro E; rewrite E in Es; destruct n; discriminate).
    pose proof (firstn_pos n _ Hn H). pose proof (skipn_length n (bd_pending b)).
    pose proof (firstn_length n (bd_pending b)). lia.
Qed.

Lemma reads_end : forall ns b c, bd_error b = Some BEof -> bd_pending b = [] -> End b c ->
  exists outs b', body_ops cparse max (map ORead ns) b c = (outs, b', c) /\ End b' c /\
    Delivers more [] (map as_piece outs) [].
Proof.
  induction ns as [|n ns IH]; intros b c He Hp HE.
  - exists [], b. cbn. auto.
  - assert (Hr : body_read cparse max n b c = (([], Some BEof), set_stash [] (Some BEof) b, c)).
    { unfold body_read. rewrite Hp, He, Hp, firstn_nil, skipn_nil, He. reflexivity. }
    cbn [map body_ops body_op]. rewrite Hr.
    destruct (IH (set_stash [] (Some BEof) b) c) as (outs & b' & Ho & HE' & Hd); [reflexivity|reflexivity|auto|].
    rewrite Ho. eexists _, _. split; [reflexivity|]. split; [assumption|]. cbn. exists []. auto.
Qed.

Lemma reads_complete : forall ns b c left, Buffered b c left -> Forall (fun n => 0 < n)%nat ns ->
  (List.length ns > rsize b c left)%nat ->
  exists outs b' c', body_ops cparse max (map ORead ns) b c = (outs, b', c') /\
    Delivers more left (map as_piece outs) [] /\ End b' c'.
Proof.
  induction ns as [|n ns IH]; intros b c left HB Hpos Hlen; [cbn in Hlen; lia|].
  inversion Hpos; subst.
  destruct (read_measure n _ _ _ HB H1) as (d & e & b1 & c1 & l1 & Hr & HB' & -> & Heof & Hms).
  cbn [map body_ops body_op]. rewrite Hr. destruct Hms as [-> | Hms].
  - destruct (Heof eq_refl) as [-> HE].
    destruct HB' as [(He0 & l & Hl & _ & HI) | (He0 & Hl & _)].
    { exfalso. pose proof (inv_eof _ _ _ HI). pose proof (end_eof _ _ HE). congruence. }
    destruct (reads_end ns b1 c1 He0 (eq_sym Hl) HE) as (outs & b' & Ho & HE' & Hd). rewrite Ho.
    eexists _, _, _. split; [reflexivity|]. split; [|assumption]. cbn. exists []. auto.
  - destruct (IH b1 c1 l1 HB' H2) as (outs & b' & c' & Ho & Hd & HE); [cbn in Hlen; lia|].
    rewrite Ho. eexists _, _, _. split; [reflexivity|]. split; [|assumption].
    cbn. exists l1. split; [reflexivity|]. split; [|assumption].
    destruct (read_ok n _ _ _ HB) as (d2 & e2 & b2 & c2 & l2 & Hr2 & Hl2 & He & _).
    rewrite Hr in Hr2. inversion Hr2; subst. apply app_inv_head in Hl2. subst l2.
    destruct He as [(-> & [Hne|Hm]) | (-> & -> & _)]; auto.
Qed.
End Generic.
