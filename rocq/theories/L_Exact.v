(* Lemmas behind P_Exact.v. *)
From Verif Require Import M_Base M_Status M_Method M_Proto M_KeyValue M_Request M_Uri M_Path M_Escape M_Client M_Response M_Serializer
  S_KeyValue S_Head S_Values S_Response S_Exact L_Base L_Uri L_Loose L_Path L_Attach L_ResponseProps L_Response L_Response2 L_Response3 L_KeyValue L_Tables M_Body M_Suit S_Chunk.

(* ---- C32 ---- *)
Lemma norm_loop_cases : forall i p, (i < List.length p)%nat -> (forall j, (i < j < List.length p)%nat -> nth j p x00 = SLASH) ->
  (exists q c k, (2 <= List.length q)%nat /\ c <> SLASH /\ p = q ++ c :: repeat SLASH k /\ norm_loop i p = q ++ [c]) \/
  ((forall j, (2 <= j < List.length p)%nat -> nth j p x00 = SLASH) /\ norm_loop i p = p).
Proof.
  induction i as [|i IH]; intros p L H; [right; split; [intros j Hj; apply H; lia|reflexivity]|].
  destruct i as [|i]; [right; split; [intros j Hj; apply H; lia|reflexivity]|]. cbn [norm_loop].
  destruct (Byte.eqb (nth (S (S i)) p x00) SLASH) eqn:E.
  - apply beq_eq in E. apply IH; [lia|]. intros j Hj. destruct (Nat.eq_dec j (S (S i))) as [->|Hn]; [exact E|apply H; lia].
  - left. apply beq_neq in E. exists (firstn (S (S i)) p), (nth (S (S i)) p x00), (List.length p - S (S (S i)))%nat.
    split; [rewrite firstn_length_le; lia|]. split; [exact E|].
    assert (Es : skipn (S (S (S i))) p = repeat SLASH (List.length p - S (S (S i)))).
    { apply (nth_ext _ _ x00 x00); [rewrite skipn_length, repeat_length; reflexivity|]. intros j Hj. rewrite skipn_length in Hj.
      rewrite <- (firstn_skipn (S (S (S i))) p) in H. rewrite (repeat_spec (List.length p - S (S (S i))) SLASH (nth j (repeat SLASH (List.length p - S (S (S i)))) x00)) by (apply nth_In; rewrite repeat_length; lia).
      specialize (H (S (S (S i)) + j)%nat). rewrite app_nth2 in H by (rewrite firstn_length_le; lia). rewrite firstn_length_le in H by lia.
      replace (S (S (S i)) + j - S (S (S i)))%nat with j in H by lia. apply H. rewrite app_length, skipn_length, firstn_length_le by lia. lia. }
    assert (Ef : firstn (S (S (S i))) p = firstn (S (S i)) p ++ [nth (S (S i)) p x00]).
    { clear -L. revert p L. generalize (S (S i)). induction n as [|n IHn]; intros p L; destruct p as [|x p]; try (cbn in L; lia); [reflexivity|].
      change (firstn (S (S n)) (x :: p)) with (x :: firstn (S n) p). rewrite IHn by (cbn in L; lia). reflexivity. }
    split; [|exact Ef]. rewrite <- (firstn_skipn (S (S (S i))) p) at 1. rewrite Es, Ef, <- app_assoc. reflexivity.
Qed.
Lemma normalize_exactly : forall p,
  (exists q c k, (2 <= List.length q)%nat /\ c <> SLASH /\ p = q ++ c :: repeat SLASH k /\ normalize p = q ++ [c]) \/
  (Forall (eq SLASH) (skipn 2 p) /\ normalize p = p).
Proof.
  intros p. destruct p as [|x p0] eqn:Ep; [right; split; [constructor|reflexivity]|]. rewrite <- Ep. unfold normalize.
  destruct (norm_loop_cases (List.length p - 1) p) as [H|[H1 H2]].
  - rewrite Ep. cbn. lia.
  - intros j Hj. lia.
  - left. exact H.
  - right. split; [|exact H2]. apply Forall_forall. intros c Hc. apply (In_nth _ _ x00) in Hc. destruct Hc as (j & Hj & <-). rewrite skipn_length in Hj.
    specialize (H1 (2 + j)%nat). rewrite <- (firstn_skipn 2 p) in H1 at 2. rewrite app_nth2 in H1 by (rewrite firstn_length; lia). rewrite firstn_length_le in H1 by lia.
    replace (2 + j - 2)%nat with j in H1 by lia. symmetry. apply H1. lia.
Qed.

(* ---- C44 ---- *)
Lemma in_range_iff : forall lo hi c, in_range lo hi c = true <-> within (lo, hi) c.
Proof. intros lo hi c. unfold in_range, within. cbn [fst snd]. rewrite andb_true_iff, !N.leb_le. reflexivity. Qed.
Lemma ascii_shown : forall c, ascii_printable c = true <-> shown c.
Proof. intros c. unfold ascii_printable, shown. rewrite andb_true_iff, !N.leb_le. reflexivity. Qed.
Lemma letter_iff : forall c l, ascii_printable c = false -> (Letter c l <-> l = escape_byte c).
Proof.
  intros c l Hp. destruct c; try discriminate Hp; cbn [escape_byte]; (split; [intros [l0 H|H]|intros ->]).
  all: try (cbn in H; repeat (destruct H as [H|H]; [try discriminate H; injection H as <-; reflexivity|]); destruct H; fail).
  all: try (exfalso; eapply H; cbn; intuition reflexivity; fail).
  all: try reflexivity.
  all: try (apply Le_letter; cbn; tauto).
  all: try (apply Le_other; intros l H; cbn in H; repeat (destruct H as [H|H]; [discriminate H|]); destruct H).
Qed.
Lemma in_range_within : forall lo hi c, in_range lo hi c = true -> within (lo, hi) c.
Proof. intros lo hi c H. apply in_range_iff. exact H. Qed.
Ltac decided lo hi x :=
  first [ replace (in_range lo hi x) with true by (symmetry; apply in_range_iff; unfold within; cbn [fst snd]; lia)
        | replace (in_range lo hi x) with false by (symmetry; apply not_true_iff_false; rewrite in_range_iff; unfold within; cbn [fst snd]; lia) ].
Ltac ranges := unfold cont in *; repeat (match goal with |- context [if in_range ?lo ?hi ?x then _ else _] => decided lo hi x | |- context [in_range ?lo ?hi ?x && _] => decided lo hi x
    | |- context [true && in_range ?lo ?hi ?x] => decided lo hi x end; cbn [andb]); try reflexivity.
Lemma multi_width : forall a t u, MultiByte a t -> rune_width (a :: t ++ u) = S (List.length t).
Proof.
  intros a t u (r & rs & HI & Ha & HF). unfold within in *. cbn [In utf8_table] in HI.
  repeat (destruct HI as [HI|HI]; [injection HI as <- <-; repeat match goal with H : Forall2 _ (_ :: _) _ |- _ => inversion H; subst; clear H | H : Forall2 _ [] _ |- _ => inversion H; subst; clear H end;
    unfold tail_range in *; cbn [fst snd app rune_width List.length] in *;
    repeat match goal with |- context [(bN ?x =? ?k)%N] => destruct (N.eqb_spec (bN x) k); [try lia|try lia] end; ranges|]).
  destruct HI.
Qed.
Ltac multi r rs := exists r, rs; split; [cbn; tauto|]; split; [|repeat constructor]; unfold within, tail_range, cont in *; cbn [fst snd] in *;
  repeat match goal with H : in_range _ _ _ = true |- _ => apply in_range_within in H; unfold within in H; cbn [fst snd] in H end; try lia.
Lemma width_multi : forall a s, rune_width (a :: s) = 1%nat \/ exists t u, s = t ++ u /\ MultiByte a t.
Proof.
  intros a s. unfold rune_width. destruct s as [|b rest]; [left; reflexivity|]. destruct (in_range 194 223 a) eqn:E1.
  - destruct (cont b) eqn:E2; [|left; reflexivity]. right. exists [b], rest. split; [reflexivity|]. multi (194, 223)%N [tail_range].
  - destruct rest as [|c rest]; [left; reflexivity|]. destruct (in_range 224 239 a) eqn:E2.
    + destruct ((if (bN a =? 224)%N then in_range 160 191 b else if (bN a =? 237)%N then in_range 128 159 b else cont b) && cont c) eqn:E3; [|left; reflexivity].
      right. exists [b; c], rest. split; [reflexivity|]. apply andb_true_iff in E3. destruct E3 as [E3 E4].
      destruct (N.eqb_spec (bN a) 224) as [N1|N1]; [|destruct (N.eqb_spec (bN a) 237) as [N2|N2]].
      * multi (224, 224)%N [(160, 191)%N; tail_range].
      * multi (237, 237)%N [(128, 159)%N; tail_range].
      * destruct (N.leb_spec (bN a) 236); [multi (225, 236)%N [tail_range; tail_range]|multi (238, 239)%N [tail_range; tail_range]].
    + destruct rest as [|d rest]; [left; reflexivity|]. destruct (in_range 240 244 a) eqn:E3; [|left; reflexivity].
      destruct ((if (bN a =? 240)%N then in_range 144 191 b else if (bN a =? 244)%N then in_range 128 143 b else cont b) && cont c && cont d) eqn:E4; [|left; reflexivity].
      right. exists [b; c; d], rest. split; [reflexivity|]. apply andb_true_iff in E4. destruct E4 as [E4 E5]. apply andb_true_iff in E4. destruct E4 as [E4 E6].
      destruct (N.eqb_spec (bN a) 240) as [N1|N1]; [|destruct (N.eqb_spec (bN a) 244) as [N2|N2]].
      * multi (240, 240)%N [(144, 191)%N; tail_range; tail_range].
      * multi (244, 244)%N [(128, 143)%N; tail_range; tail_range].
      * multi (241, 243)%N [tail_range; tail_range; tail_range].
Qed.
Lemma multi_high : forall a t, MultiByte a t -> (194 <= bN a)%N.
Proof.
  intros a t (r & rs & HI & [Ha _] & _). cbn [In utf8_table] in HI.
  repeat (destruct HI as [HI|HI]; [injection HI as <- <-; cbn [fst] in Ha; lia|]). destruct HI.
Qed.
Lemma high_mark : forall a, (194 <= bN a)%N -> ascii_printable a = false /\ escape_byte a = x3f.
Proof. intros a H. destruct a; try (exfalso; vm_compute in H; apply H; reflexivity); split; reflexivity. Qed.
Lemma escapes_once : forall s e, Escapes s e -> forall fuel, (List.length s <= fuel)%nat -> escape_aux fuel s = e.
Proof.
  intros s e H. induction H as [|c s e Hc H IH|a t s e Hm H IH|c s e l Hc Hm Hl H IH]; intros fuel L; (destruct fuel as [|fuel]; [cbn in L; try lia; reflexivity|]); cbn [escape_aux].
  - reflexivity.
  - pose proof (proj2 (ascii_shown c) Hc) as E. rewrite E.
    assert (W : rune_width (c :: s) = 1%nat).
    { destruct (width_multi c s) as [W|(t & u & _ & M)]; [exact W|]. destruct (high_mark c (multi_high _ _ M)) as [C _]. congruence. }
    rewrite W. cbn [Nat.sub firstn skipn app]. rewrite IH by (cbn in L; lia). reflexivity.
  - rewrite (multi_width a t s Hm). destruct (high_mark a (multi_high _ _ Hm)) as [-> ->]. cbn [Nat.sub]. rewrite Nat.sub_0_r, firstn_app, firstn_all, Nat.sub_diag, skipn_app, skipn_all, Nat.sub_diag.
    cbn [firstn skipn app]. rewrite app_nil_r. rewrite IH by (cbn in L; rewrite app_length in L; lia). reflexivity.
  - assert (E : ascii_printable c = false) by (destruct (ascii_printable c) eqn:E; [destruct (Hc (proj1 (ascii_shown c) E))|reflexivity]). rewrite E.
    apply (letter_iff c l E) in Hl. subst l. destruct (width_multi c s) as [W|(t & u & Hs & M)]; [|destruct (Hm t u Hs M)]. rewrite W. cbn [Nat.sub firstn skipn app].
    rewrite IH by (cbn in L; lia). reflexivity.
Qed.
Lemma escapes_some : forall n s, (List.length s <= n)%nat -> exists e, Escapes s e.
Proof.
  induction n as [|n IH]; intros s L; [destruct s; [exists []; constructor|cbn in L; lia]|]. destruct s as [|c s]; [exists []; constructor|]. cbn in L.
  destruct (ascii_printable c) eqn:E.
  - destruct (IH s) as [e He]; [lia|]. exists (c :: e). apply Es_shown; [apply ascii_shown; exact E|exact He].
  - assert (N : ~ shown c) by (intro C; apply ascii_shown in C; congruence).
    destruct (width_multi c s) as [W|(t & u & -> & M)].
    + destruct (IH s) as [e He]; [lia|]. exists (x5c :: escape_byte c :: e). apply Es_byte; [exact N| |apply letter_iff; [exact E|reflexivity]|exact He].
      intros t u -> M. rewrite (multi_width c t u M) in W. destruct M as (r & rs & HI & _ & HF). destruct t; [|discriminate W].
      cbn [In utf8_table] in HI. repeat (destruct HI as [HI|HI]; [injection HI as <- <-; inversion HF|]). destruct HI.
    + destruct (IH u) as [e He]; [rewrite app_length in L; lia|]. eexists. apply Es_rune; [exact M|exact He].
Qed.
Lemma escapes_exactly : forall s e, escape s = e <-> Escapes s e.
Proof.
  intros s e. split.
  - intros <-. destruct (escapes_some (List.length s) s) as [e He]; [lia|]. unfold escape. rewrite (escapes_once s e He) by lia. exact He.
  - intros H. apply (escapes_once s e H). lia.
Qed.

(* ---- C23, C57 ---- *)
Lemma plain_any : forall (pieces : list bytes) (last : bytes) e more mem c, Forall (fun d => (List.length d <= List.length mem)%nat) pieces -> writes_ok c ->
  exists mem' c', write_plain (map (fun d => (d, None)) pieces ++ (last, Some e) :: more) mem c = (match e with REof => WOk | RFail => WClose end, mem', c', more) /\ cl_out c' = cl_out c ++ pieces.
Proof.
  induction pieces as [|d pieces IH]; intros last e more mem c Hf Hw.
  - exists (overwrite mem 0 last), c. split; [destruct e; reflexivity|]. symmetry. apply app_nil_r.
  - inversion Hf as [|? ? F Hf']; subst. cbn [map app write_plain].
    rewrite (proj2 (Nat.ltb_ge (List.length (overwrite mem 0 d)) (List.length d))) by (rewrite overwrite_length_le; exact F).
    assert (E : firstn (List.length d) (overwrite mem 0 d) = d).
    { destruct (split_len (List.length d) mem F) as (a & b & -> & La). pose proof (overwrite_app [] a b d 0 eq_refl La) as K. cbn [app] in K. rewrite K.
      rewrite firstn_app, firstn_all, Nat.sub_diag. cbn. apply app_nil_r. }
    rewrite E. destruct (client_writes_ok c d Hw) as (c2 & Ec & Eo & Hw2). rewrite Ec.
    destruct (IH last e more (overwrite mem 0 d) c2) as (mem2 & c3 & E3 & Eo3).
    + rewrite overwrite_length_le. exact Hf'.
    + exact Hw2.
    + exists mem2, c3. split; [exact E3|]. rewrite Eo3, Eo, <- app_assoc. reflexivity.
Qed.
Lemma any_reader : forall fbs defs past s p r f a (pieces : list bytes) (last : bytes) e more c res s' c' f',
  Served fbs defs past s -> distinct_names defs -> p <> PUnknown -> f_att f = Some a -> (0 < at_size a)%Z ->
  at_events a = map (fun d => (d, None)) pieces ++ (last, Some e) :: more -> r_method r <> HEAD ->
  Forall (fun d => (List.length d <= Z.to_nat (Z.max 16 fbs))%nat) pieces -> writes_ok c ->
  write_response p r f s c = (res, s', c', f') ->
  res = (match e with REof => WOk | RFail => WClose end) /\ cl_out c' = cl_out c ++
      [s_buff s ++ response_text (version_of p) (itoa_N (f_code f)) (sent_reason f) (attachment_fields defs past f a) []] ++ pieces.
Proof.
  intros fbs defs past s p r f a pieces last e more c res s' c' f' Hs Hd Hp Ha Hz He Hm Hf Hw H.
  destruct (att_head_text fbs defs past s p f a Hs Hd Hp) as (E1 & E2 & E3).
  unfold write_response in H. rewrite Ha in H. unfold send_attachment in H. cbv zeta in *.
  replace (0 <? at_size a)%Z with true in * by (symmetry; apply Z.ltb_lt; exact Hz).
  set (s1 := put CRLF _) in *. rewrite E1 in H.
  destruct (client_writes_ok c (s_buff s ++ response_text (version_of p) (itoa_N (f_code f)) (sent_reason f) (attachment_fields defs past f a) []) Hw)
    as (c1 & Ec & Eo & Hw1). rewrite Ec in H. cbn [negb] in H.
  replace (method_eqb (r_method r) HEAD) with false in H by (destruct (r_method r); try reflexivity; congruence).
  rewrite E2, E3, He in H. match type of H with context [write_plain _ ?m c1] => set (mem := m) in * end.
  assert (Lm : List.length mem = Z.to_nat (Z.max 16 fbs)) by exact (mem_size fbs defs past s Hs). clearbody mem.
  destruct (plain_any pieces last e more mem c1) as (mem' & c2 & W & Eo2); [rewrite Lm; exact Hf|exact Hw1|].
  rewrite W in H. destruct e; injection H as <- <- <- <-; (split; [reflexivity|]); rewrite Eo2, Eo, <- app_assoc; reflexivity.
Qed.
Lemma all_values_app : forall a b n, all_values (a ++ b) n = all_values a n ++ all_values b n.
Proof. intros a b n. unfold all_values. rewrite filter_app, map_app. reflexivity. Qed.
Lemma transfer_exactly : forall defs past f a,
  Forall (fun e => ~ same_key (fst e) (B "transfer-encoding")) (f_headers f ++ defs) ->
  all_values (attachment_fields defs past f a) (B "transfer-encoding") =
  if (0 <? at_size a)%Z then (match f_te f with [] => [] | t => [t] end) else [B "chunked"].
Proof.
  intros defs past f a Hf. apply Forall_app in Hf. destruct Hf as [H1 H2]. unfold attachment_fields. rewrite !all_values_app.
  rewrite (all_values_absent (f_headers f)) by exact H1.
  rewrite (all_values_absent (remaining _ defs)) by (apply Forall_forall; intros e He; apply filter_In in He; rewrite Forall_forall in H2; apply H2; tauto).
  rewrite (all_values_absent [_]) by (constructor; [vm_compute; discriminate|constructor]). cbn [app].
  destruct (0 <? at_size a)%Z; [|reflexivity]. rewrite all_values_app. rewrite (all_values_absent [(B "Content-Length", _)]) by (constructor; [vm_compute; discriminate|constructor]).
  destruct (f_te f); reflexivity.
Qed.

(* ---- C09 ---- *)
Lemma fuel_pos : forall CS (cparse : CS -> bytes -> bool -> CS * (bytes * bytes * option cerr)) max fuel (b : body CS) c b' c', bytes_loop cparse max fuel b c = (BRPanic, b', c') -> False.
Proof.
  intros CS cparse max fuel. induction fuel as [|n IH]; intros b c b' c' H; cbn [bytes_loop] in H; [discriminate H|].
  destruct (retrieve cparse max b c) as [[[d e] b1] c1]. destruct e as [[]|]; try discriminate H; eapply IH; exact H.
Qed.
Lemma alloc_exactly : forall CS (cparse : CS -> bytes -> bool -> CS * (bytes * bytes * option cerr)) max (W : Type) (k : bout -> hprog W) r (b : body CS) c,
  (run_handler cparse max (HBody OBytes k) r b c = HPanic r b c /\ body_bytes cparse max b c = (BRPanic, b, c)) <->
  (bd_eof b = false /\ bd_chunked b = false /\ bd_cap b < bd_clen b /\ 281474976710656 < bd_clen b)%Z.
Proof.
  intros CS cparse max W k r b c. cbn [run_handler body_op]. split.
  - intros [_ H]. unfold body_bytes in H. destruct (bd_eof b); [discriminate H|]. destruct (bd_chunked b); cbn [negb andb] in H.
    + destruct (fuel_pos _ _ _ _ _ _ _ _ H).
    + destruct (Z.ltb_spec (bd_cap b) (bd_clen b)) as [L|L]; cbn [andb] in H; [|destruct (fuel_pos _ _ _ _ _ _ _ _ H)].
      destruct (bd_clen b >? max_alloc)%Z eqn:E; [|destruct (fuel_pos _ _ _ _ _ _ _ _ H)]. rewrite Z.gtb_ltb in E. apply Z.ltb_lt in E. auto.
  - intros (H1 & H2 & H3 & H4). assert (E : body_bytes cparse max b c = (BRPanic, b, c)).
    { unfold body_bytes. rewrite H1, H2. cbn [negb andb]. rewrite (proj2 (Z.ltb_lt _ _) H3). cbn [andb]. rewrite Z.gtb_ltb. unfold max_alloc. rewrite (proj2 (Z.ltb_lt _ _) H4). reflexivity. }
    rewrite E. split; reflexivity.
Qed.
