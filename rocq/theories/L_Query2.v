(* What any query text means. *)
From Verif Require Import M_Base L_Base M_Status M_Uri M_KeyValue M_Query S_Head S_KeyValue S_Query L_Uri L_KeyValue L_Query.

Lemma spaced_map : forall s, map plus_to_space s = spaced s.
Proof.
  reflexivity.
Qed.

Lemma scan_key_amp : forall k rest acc, ~ In x3d k -> ~ In x26 k ->
  scan_key (k ++ x26 :: rest) acc = (acc ++ map plus_to_space k, Some (x26, rest)).
Proof.
  induction k as [|c k IH]; intros rest acc H1 H2; cbn [app scan_key map].
  - rewrite app_nil_r. reflexivity.
  - assert (E1 : Byte.eqb c x3d = false) by (apply beq_neq; intros ->; apply H1; left; reflexivity).
    assert (E2 : Byte.eqb c x26 = false) by (apply beq_neq; intros ->; apply H2; left; reflexivity).
    rewrite E1, E2, IH; [rewrite <- app_assoc; reflexivity| |]; intro; [apply H1|apply H2]; right; assumption.
Qed.
Lemma scan_key_end : forall k acc, ~ In x3d k -> ~ In x26 k -> scan_key k acc = (acc ++ map plus_to_space k, None).
Proof.
  induction k as [|c k IH]; intros acc H1 H2; cbn [scan_key map].
  - rewrite app_nil_r. reflexivity.
  - assert (E1 : Byte.eqb c x3d = false) by (apply beq_neq; intros ->; apply H1; left; reflexivity).
    assert (E2 : Byte.eqb c x26 = false) by (apply beq_neq; intros ->; apply H2; left; reflexivity).
    rewrite E1, E2, IH; [rewrite <- app_assoc; reflexivity| |]; intro; [apply H1|apply H2]; right; assumption.
Qed.

Lemma piece_more : forall p e, Piece p e -> ~ In x26 p -> forall fuel d acc,
  query_key (S fuel) (p ++ x26 :: d) acc = query_key fuel d (acc ++ [e]).
Proof.
  intros p e H Hn fuel d acc. destruct H as [k Hk|k v Hk0 Hk].
  - cbn [query_key]. destruct (k ++ x26 :: d) eqn:E; [destruct k; discriminate|]. rewrite <- E.
    rewrite scan_key_amp by assumption. cbn [app]. rewrite spaced_map. unfold flag_value. destruct (spaced k); reflexivity.
  - rewrite <- app_assoc. cbn [app].
    rewrite (query_key_app fuel (spaced k) (spaced v) k v (x26 :: d) acc); try (apply spaced_map); [reflexivity|exact Hk| | |].
    + intro; apply Hn; apply in_or_app; left; assumption.
    + intro; apply Hn; apply in_or_app; right; right; assumption.
    + destruct k; [congruence|discriminate].
Qed.
Lemma piece_last : forall p e, Piece p e -> ~ In x26 p -> p <> [] -> forall fuel acc,
  query_key (S fuel) p acc = (acc ++ [e], None).
Proof.
  intros p e H Hn Hp fuel acc. destruct H as [k Hk|k v Hk0 Hk].
  - cbn [query_key]. destruct k as [|c k'] eqn:E; [congruence|]. rewrite <- E in *.
    rewrite scan_key_end by assumption. cbn [app]. rewrite spaced_map. unfold flag_value. destruct (spaced k); reflexivity.
  - pose proof (query_key_app fuel (spaced k) (spaced v) k v [] acc) as Q. rewrite app_nil_r in Q.
    apply Q; try (apply spaced_map); [exact Hk| | |].
    + intro; apply Hn; apply in_or_app; left; assumption.
    + intro; apply Hn; apply in_or_app; right; right; assumption.
    + destruct k; [congruence|discriminate].
Qed.

Lemma text_key : forall d l, QueryText d l -> forall fuel acc, (List.length d < fuel)%nat ->
  query_key fuel d acc = (acc ++ l, None).
Proof.
  induction 1 as [|p e Hp Hn HP|p e d l Hn HP H IH]; intros fuel acc Hf; (destruct fuel as [|fuel]; [lia|]).
  - cbn. rewrite app_nil_r. reflexivity.
  - apply piece_last; assumption.
  - rewrite (piece_more p e HP Hn). rewrite app_length in Hf. cbn [List.length] in Hf.
    rewrite IH by lia. rewrite <- app_assoc. reflexivity.
Qed.
Lemma nameless_key : forall d, NamelessText d -> forall fuel acc, (List.length d < fuel)%nat ->
  exists l x, query_key fuel d acc = (l, Some x).
Proof.
  induction 1 as [d|p e d Hn HP H IH]; intros fuel acc Hf; (destruct fuel as [|fuel]; [lia|]).
  - cbn [query_key scan_key]. change (Byte.eqb x3d x3d) with true. cbn [app]. eauto.
  - rewrite (piece_more p e HP Hn). rewrite app_length in Hf. cbn [List.length] in Hf. apply IH. lia.
Qed.

Lemma query_text : forall raw d l, PctDecodes raw d -> QueryText d l -> query_parse raw = (l, None).
Proof.
  intros raw d l H1 H2. unfold query_parse. destruct raw as [|c raw'].
  - inversion H1; subst. inversion H2 as [|? ? Hne| ? ? ? ? ? ? ? Hc]; subst; try reflexivity; [congruence|].
    destruct p; discriminate.
  - rewrite (uri_decode_spec _ _ H1). rewrite (text_key d l H2) by lia. reflexivity.
Qed.
Lemma query_bad : forall raw e, BadQuery raw e -> exists l, query_parse raw = (l, Some e).
Proof.
  intros raw e [a d t Ha Ht Hn|raw' d Hd H].
  - pose proof (uri_decode_truncated a d t Ha Ht Hn) as U. exists []. unfold query_parse. rewrite U.
    destruct (a ++ x25 :: t) eqn:E; [destruct a; discriminate|reflexivity].
  - unfold query_parse. destruct raw' as [|c raw''].
    + inversion Hd; subst. inversion H as [|p ? ? ? ? ? Hc]; subst. destruct p; discriminate.
    + rewrite (uri_decode_spec _ _ Hd). destruct (nameless_key d H (S (List.length d)) [] ltac:(lia)) as (l & x & ->). eauto.
Qed.

Lemma piece_total : forall p, (exists e, Piece p e) \/ exists v, p = x3d :: v.
Proof.
  intro p. destruct (in_dec byte_eq_dec x3d p) as [Hi|Hi]; [|left; eexists; constructor; exact Hi].
  assert (X : exists k v, p = k ++ x3d :: v /\ ~ In x3d k).
  { clear -Hi. induction p as [|c p IH]; [contradiction|]. destruct (byte_eq_dec c x3d) as [->|Hc].
    - exists [], p. split; [reflexivity|intros []].
    - destruct IH as (k & v & -> & Hk); [destruct Hi; [congruence|assumption]|].
      exists (c :: k), v. split; [reflexivity|]. intros [|]; [congruence|contradiction]. }
  destruct X as (k & v & -> & Hk). destruct k as [|c k]; [right; exists v; reflexivity|].
  left. eexists. apply Piece_pair; [discriminate|exact Hk].
Qed.
Lemma first_piece : forall d : bytes, ~ In x26 d \/ exists p d', d = p ++ x26 :: d' /\ ~ In x26 p.
Proof.
  induction d as [|c d IH]; [left; intros []|]. destruct (byte_eq_dec c x26) as [->|Hc].
  - right. exists [], d. split; [reflexivity|intros []].
  - destruct IH as [Hn|(p & d' & -> & Hp)].
    + left. intros [|]; [congruence|contradiction].
    + right. exists (c :: p), d'. split; [reflexivity|]. intros [|]; [congruence|contradiction].
Qed.
Lemma text_total : forall n d, (List.length d <= n)%nat -> (exists l, QueryText d l) \/ NamelessText d.
Proof.
  induction n as [|n IH]; intros d Hd.
  - destruct d; [left; exists []; constructor|cbn in Hd; lia].
  - destruct (first_piece d) as [Hn|(p & d' & -> & Hp)].
    + destruct d as [|c d0] eqn:E; [left; exists []; constructor|]. rewrite <- E in *.
      destruct (piece_total d) as [[e He]|[v Hv]].
      * left. exists [e]. apply QT_last; [rewrite E; discriminate|exact Hn|exact He].
      * right. rewrite Hv. constructor.
    + destruct (piece_total p) as [[e He]|[v ->]]; [|right; constructor].
      rewrite app_length in Hd. cbn [List.length] in Hd. destruct (IH d' ltac:(lia)) as [[l Hl]|Hb].
      * left. exists (e :: l). constructor; assumption.
      * right. econstructor; eassumption.
Qed.
Lemma decoded_query_total : forall raw d, PctDecodes raw d ->
  (exists l, QueryText d l) \/ BadQuery raw ErrBadQuery.
Proof.
  intros raw d H. destruct (text_total (List.length d) d (le_n _)) as [L|Hb]; [left; exact L|].
  right. econstructor; eassumption.
Qed.

Lemma q_text_calls : forall q raw d l accesses,
  (q_parsed q = false -> kv_pairs (q_params q) = []) -> PctDecodes raw d -> QueryText d l ->
  Forall2 (q_right l) accesses (snd (q_calls (query_set q raw) accesses)).
Proof.
  intros q raw d l accesses H H1 H2. destruct (query_set_fresh q raw H) as [F1 F2].
  apply q_calls_good; [exact F1|]. rewrite F2. eapply query_text; eassumption.
Qed.
Lemma q_bad_first : forall q raw e a,
  (q_parsed q = false -> kv_pairs (q_params q) = []) -> BadQuery raw e ->
  reports e (snd (q_call (query_set q raw) a)).
Proof.
  intros q raw e a H Hb. destruct (query_set_fresh q raw H) as [F1 F2]. destruct (query_bad raw e Hb) as [l E].
  rewrite <- F2 in E. destruct (do_parse_fresh _ l (Some e) F1 E) as (q' & P1 & P2 & P3).
  destruct a as [k|]; unfold q_call, query_get, query_unwrap; rewrite P1; reflexivity.
Qed.
