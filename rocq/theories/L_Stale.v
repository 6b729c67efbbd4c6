(* Lemmas: what a body object keeps of the bodies before. *)
From Verif Require Import M_Base M_Status M_Request M_Parser M_Client M_Body S_Stale L_Base.

Section Stale.
Variable CS : Type.
Variable cparse : CS -> bytes -> bool -> CS * (bytes * bytes * option cerr).
Variable max : Z.
Notation retrieve := (M_Body.retrieve cparse max).

Lemma retrieve_full : forall (b : body CS) c x b' c', retrieve b c = (x, b', c') -> bd_full b' = bd_full b.
Proof.
  intros b c x b' c' H. unfold M_Body.retrieve in H. destruct (bd_eof b); [injection H as <- <- <-; reflexivity|].
  assert (K : forall y b1 c1, (if bd_chunked b then chunked_read cparse max b c else plain_read max b c) = (y, b1, c1) -> bd_full b1 = bd_full b).
  { intros y b1 c1 E. destruct (bd_chunked b).
    - unfold chunked_read in E. destruct (client_read c) as [[d [e|]] c2]; [injection E as <- <- <-; reflexivity|].
      destruct (cparse (bd_cs b) d (bd_trailer b)) as [cs [[ch ex] ce]]. destruct ce as [[|]|];
        try (injection E as <- <- <-; reflexivity); destruct (_ || _); injection E as <- <- <-; reflexivity.
    - unfold plain_read in E. destruct (_ =? _)%Z; [injection E as <- <- <-; reflexivity|].
      destruct (client_read c) as [[d [e|]] c2]; [injection E as <- <- <-; reflexivity|].
      destruct (_ >? _)%Z; [injection E as <- <- <-; reflexivity|]. destruct (_ >=? _)%Z; injection E as <- <- <-; reflexivity. }
  destruct (if bd_chunked b then chunked_read cparse max b c else plain_read max b c) as [[y b1] c1]. specialize (K _ _ _ eq_refl).
  injection H as <- <- <-. destruct (berr_eof (snd y)); exact K.
Qed.
Lemma retrieve_error : forall (b : body CS) c d e b' c', retrieve b c = ((d, Some e), b', c') -> e <> BEof -> d = [].
Proof.
  intros b c d e b' c' H He. unfold M_Body.retrieve in H. destruct (bd_eof b); [injection H as <- <- <- <-; reflexivity|].
  assert (K : forall y b1 c1, (if bd_chunked b then chunked_read cparse max b c else plain_read max b c) = (y, b1, c1) -> snd y = Some e -> fst y = []).
  { intros y b1 c1 E. destruct (bd_chunked b).
    - unfold chunked_read in E. destruct (client_read c) as [[d0 [e0|]] c2]; [injection E as <- <- <-; reflexivity|].
      destruct (cparse (bd_cs b) d0 (bd_trailer b)) as [cs [[ch ex] ce]]. destruct ce as [[|]|];
        try (injection E as <- <- <-; reflexivity); destruct (_ || _); injection E as <- <- <-; try reflexivity; cbn; congruence.
    - unfold plain_read in E. destruct (_ =? _)%Z; [injection E as <- <- <-; reflexivity|].
      destruct (client_read c) as [[d0 [e0|]] c2]; [injection E as <- <- <-; reflexivity|].
      destruct (_ >? _)%Z; [injection E as <- <- <-; reflexivity|]. destruct (_ >=? _)%Z; injection E as <- <- <-; cbn; congruence. }
  destruct (if bd_chunked b then chunked_read cparse max b c else plain_read max b c) as [[y b1] c1]. specialize (K _ _ _ eq_refl).
  injection H as -> _ _. apply K. reflexivity.
Qed.
Lemma retrieve_blind : forall (b : body CS) c f cap, retrieve (set_full f cap b) c =
  let '(x, b', c') := retrieve b c in (x, set_full f cap b', c').
Proof.
  intros b c f cap. unfold M_Body.retrieve. cbn [set_full bd_eof bd_chunked]. destruct (bd_eof b); [reflexivity|]. destruct (bd_chunked b).
  - unfold chunked_read. destruct (client_read c) as [[d [e|]] c2]; [destruct e; reflexivity|]. cbn [set_full bd_cs bd_trailer bd_received].
    destruct (cparse (bd_cs b) d (bd_trailer b)) as [cs [[ch ex] ce]]. destruct ce as [[|]|]; try reflexivity; destruct (_ || _); reflexivity.
  - unfold plain_read. cbn [set_full bd_left]. destruct (_ =? _)%Z; [reflexivity|]. destruct (client_read c) as [[d [e|]] c2]; [destruct e; reflexivity|].
    destruct (_ >? _)%Z; [reflexivity|]. destruct (_ >=? _)%Z; reflexivity.
Qed.

Lemma callback_full : forall n cb seen (b : body CS) c ps r b' c', callback_loop cparse max n cb seen b c = (ps, r, b', c') -> bd_full b' = bd_full b.
Proof.
  induction n as [|n IH]; intros cb seen b c ps r b' c' H; cbn [callback_loop] in H; [injection H as <- <- <- <-; reflexivity|].
  destruct (retrieve b c) as [[[d e] b1] c1] eqn:E. apply retrieve_full in E.
  destruct e as [[| | |]|]; try (injection H as <- <- <- <-; exact E). destruct (cb _); [|injection H as <- <- <- <-; exact E].
  apply IH in H. congruence.
Qed.
Lemma discard_full : forall n (b : body CS) c r b' c', discard_loop cparse max n b c = (r, b', c') -> bd_full b' = bd_full b.
Proof.
  induction n as [|n IH]; intros b c r b' c' H; cbn [discard_loop] in H; [injection H as <- <- <-; reflexivity|].
  destruct (bd_eof b); [injection H as <- <- <-; reflexivity|].
  destruct (retrieve b c) as [[[d e] b1] c1] eqn:E. apply retrieve_full in E.
  destruct e as [[| | |]|]; try (injection H as <- <- <-; exact E). apply IH in H. congruence.
Qed.
Lemma bytes_loop_full : forall n (b : body CS) c d b' c', bytes_loop cparse max n b c = (BROk d, b', c') -> bd_full b' = d.
Proof.
  induction n as [|n IH]; intros b c d b' c' H; cbn [bytes_loop] in H; [discriminate|].
  destruct (retrieve b c) as [[[d0 e] b1] c1] eqn:E. destruct e as [[| | |]|]; try discriminate; [|eapply IH; exact H].
  injection H as <- <- <-. reflexivity.
Qed.
Lemma op_full : forall op (b : body CS) c o b' c', body_op cparse max op b c = (o, b', c') -> (forall r, o = RBytes r -> exists d, r = BROk d) ->
  bd_full b' = last_whole (bd_full b) [o].
Proof.
  intros op b c o b' c' H Hf. destruct op; cbn [body_op] in H.
  - destruct (body_bytes cparse max b c) as [[r b1] c1] eqn:E. injection H as <- <- <-. destruct (Hf r eq_refl) as [d ->]. cbn [last_whole].
    unfold body_bytes in E. destruct (bd_eof b); [injection E as <- <- <-; reflexivity|]. destruct (_ && (bd_clen b >? _)%Z); [discriminate|].
    eapply bytes_loop_full. exact E.
  - destruct (retrieve b c) as [[[d e] b1] c1] eqn:E. injection H as <- <- <-. cbn. eapply retrieve_full. exact E.
  - destruct (body_read cparse max n b c) as [[[d e] b1] c1] eqn:E. injection H as <- <- <-. cbn [last_whole]. unfold body_read in E.
    destruct (bd_pending b); [destruct (bd_error b)|].
    + injection E as <- <- <- <-. reflexivity.
    + destruct (retrieve b c) as [[[d0 e0] b2] c2] eqn:E2. injection E as <- <- <- <-. cbn. eapply retrieve_full. exact E2.
    + injection E as <- <- <- <-. reflexivity.
  - destruct (body_callback cparse max cb b c) as [[[ps r] b1] c1] eqn:E. injection H as <- <- <-. cbn. eapply callback_full. exact E.
  - destruct (body_discard cparse max b c) as [[r b1] c1] eqn:E. injection H as <- <- <-. cbn. eapply discard_full. exact E.
Qed.
Lemma last_whole_app : forall a b old, last_whole old (a ++ b) = last_whole (last_whole old a) b.
Proof. induction a as [|[[]| | |] a IH]; intros b old; cbn; auto. Qed.
Lemma ops_full : forall ops (b : body CS) c os b' c', body_ops cparse max ops b c = (os, b', c') -> NoneFailed os -> bd_full b' = last_whole (bd_full b) os.
Proof.
  induction ops as [|op ops IH]; intros b c os b' c' H Hf; cbn [body_ops] in H; [injection H as <- <- <-; reflexivity|].
  destruct (body_op cparse max op b c) as [[o b1] c1] eqn:E. destruct (body_ops cparse max ops b1 c1) as [[os1 b2] c2] eqn:E2. injection H as <- <- <-.
  change (o :: os1) with ([o] ++ os1). rewrite last_whole_app. rewrite <- (op_full _ _ _ _ _ _ E); [|intros r ->; apply Hf; left; reflexivity].
  eapply IH; [exact E2|]. intros r Hr. apply Hf. right. exact Hr.
Qed.
Lemma init_full : forall (b : body CS) r, bd_full (body_init b r) = bd_full b.
Proof. intros b r. unfold body_init. destruct (enc_chunked _); reflexivity. Qed.
Lemma lives_full : forall l (b : body CS) c oss b' c', lives cparse max l b c = (oss, b', c') -> NoneFailed (concat oss) -> bd_full b' = last_whole (bd_full b) (concat oss).
Proof.
  induction l as [|[r ops] l IH]; intros b c oss b' c' H Hf; cbn [lives] in H; [injection H as <- <- <-; reflexivity|].
  destruct (body_ops cparse max ops (body_init b r) c) as [[os b1] c1] eqn:E. destruct (lives cparse max l b1 c1) as [[oss1 b2] c2] eqn:E2. injection H as <- <- <-.
  cbn [concat] in *. rewrite last_whole_app, <- (init_full b r). rewrite <- (ops_full _ _ _ _ _ _ E); [|intros x Hx; apply Hf; apply in_or_app; left; exact Hx].
  eapply IH; [exact E2|]. intros x Hx. apply Hf. apply in_or_app. right. exact Hx.
Qed.

(* the other Bytes: nothing of what was kept matters *)
Lemma bytes_loop_blind : forall n (b : body CS) c f cap cap', 
  let '(r, b1, c1) := bytes_loop cparse max n (set_full f cap b) c in
  exists cap1, bytes_loop cparse max n (set_full f cap' b) c = (r, set_full (bd_full b1) cap1 b1, c1).
Proof.
  induction n as [|n IH]; intros b c f cap cap'; cbn [bytes_loop]; [exists cap'; destruct b; reflexivity|].
  rewrite !retrieve_blind. destruct (retrieve b c) as [[[d e] b1] c1]. cbn [set_full bd_full bd_cap].
  destruct e as [[| | |]|]; try (eexists; reflexivity).
  specialize (IH b1 c1 (f ++ d) (Z.max cap (len (f ++ d))) (Z.max cap' (len (f ++ d)))).
  exact IH.
Qed.
Theorem stale_exact : forall l cs c oss b c', lives cparse max l (new_body cs) c = (oss, b, c') -> NoneFailed (concat oss) ->
  (bd_eof b = true -> body_op cparse max OBytes b c' = (RBytes (BROk (last_whole [] (concat oss))), b, c')) /\
  (bd_eof b = false -> forall old cap, (bd_chunked b = true \/ bd_clen b <= max_alloc)%Z ->
     fst (fst (body_op cparse max OBytes (set_full old cap b) c')) = fst (fst (body_op cparse max OBytes b c'))).
Proof.
  intros l cs c oss b c' H Hf. pose proof (lives_full _ _ _ _ _ _ H Hf) as Hb. cbn [bd_full new_body] in Hb. split.
  - intros He. cbn [body_op]. unfold body_bytes. rewrite He, Hb. reflexivity.
  - intros He old cap Hc. cbn [body_op]. unfold body_bytes. cbn [set_full bd_eof bd_chunked bd_cap bd_clen]. rewrite He.
    assert (G : forall k, negb (bd_chunked b) && (k <? bd_clen b)%Z && (bd_clen b >? max_alloc)%Z = false).
    { intros k. destruct Hc as [-> | Hc]; [reflexivity|]. replace (bd_clen b >? max_alloc)%Z with false by (symmetry; rewrite Z.gtb_ltb; apply Z.ltb_ge; lia). apply andb_false_r. }
    rewrite !G. set (c1 := if negb (bd_chunked b) && (cap <? bd_clen b)%Z then bd_clen b else cap). set (c2 := if negb (bd_chunked b) && (bd_cap b <? bd_clen b)%Z then bd_clen b else bd_cap b).
    pose proof (bytes_loop_blind (loop_fuel c') b c' [] c2 c1) as K.
    destruct (bytes_loop cparse max (loop_fuel c') (set_full [] c2 b) c') as [[r b1] cc]. destruct K as [cap1 K].
    change (M_Body.set_full [] c1 (M_Body.set_full old cap b)) with (set_full [] c1 b). rewrite K. reflexivity.
Qed.

(* a Bytes that fails keeps what it got *)
Lemma failed_loop : forall n (b : body CS) c e b' c' seen f cap, bytes_loop cparse max n (set_full f cap b) c = (BRErr e, b', c') ->
  exists ps b2, callback_loop cparse max n takes_all seen b c = (seen ++ ps, Some (Some e), b2, c') /\ bd_full b' = f ++ concat ps.
Proof.
  induction n as [|n IH]; intros b c e b' c' seen f cap H; cbn [bytes_loop] in H; [discriminate|].
  rewrite retrieve_blind in H. cbn [callback_loop]. destruct (retrieve b c) as [[[d er] b1] c1] eqn:E. cbn [set_full bd_full bd_cap] in H.
  destruct er as [[| | |]|]; try discriminate;
    try (injection H as <- <- <-; exists [], b1; rewrite app_nil_r; (split; [reflexivity|]); cbn; rewrite (retrieve_error _ _ _ _ _ _ E) by discriminate; reflexivity).
  destruct (IH b1 c1 e b' c' (seen ++ [d]) (f ++ d) (Z.max cap (len (f ++ d))) H) as (ps & b2 & K1 & K2).
  exists (d :: ps), b2. cbn [takes_all]. change (seen ++ d :: ps) with (seen ++ [d] ++ ps). rewrite app_assoc. split; [exact K1|]. rewrite K2. cbn [concat]. rewrite app_assoc. reflexivity.
Qed.
Theorem failed_exact : forall (b : body CS) c e b' c', body_op cparse max OBytes b c = (RBytes (BRErr e), b', c') ->
  exists ps b2, body_op cparse max (OCallback takes_all) b c = (RCallback ps (Some (Some e)), b2, c') /\ bd_full b' = concat ps.
Proof.
  intros b c e b' c' H. cbn [body_op] in H |- *. destruct (body_bytes cparse max b c) as [[r b1] c1] eqn:E. injection H as -> -> ->.
  unfold body_bytes in E. destruct (bd_eof b) eqn:He; [discriminate|]. destruct (_ && (bd_clen b >? _)%Z); [discriminate|].
  destruct (failed_loop _ _ _ _ _ _ [] _ _ E) as (ps & b2 & K1 & K2). unfold body_callback. rewrite K1. exists ps, b2. split; [reflexivity|]. exact K2.
Qed.
End Stale.
