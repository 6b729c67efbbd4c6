(* The parser only writes into the request object: two objects that meet the same bytes. *)
From Verif Require Import M_Base M_Status M_Method M_Proto M_Uri M_KeyValue M_Query M_Request M_Parser S_Head S_Parser S_Body M_Client M_Body M_Response M_Serializer M_Suit
  S_KeyValue S_Response S_Conn S_Unversioned S_Iso L_Base L_Parser L_Safe L_Conn3.

Section Iso.
Variables a0 b0 : request.

Definition after_method (l : pstate) : Prop := l <> eMethod.
Definition after_line (l : pstate) : Prop := l <> eMethod /\ l <> ePath.
Record sim (l : pstate) (p q : parser) : Prop := {
  si_start : p_start p = p_start q;
  si_key : p_key p = p_key q;
  si_val : p_val p = p_val q;
  si_hnum : p_hnum p = p_hnum q;
  si_clen : p_clen p = p_clen q;
  si_hkey : l = eHeaderValue -> p_hkey p = p_hkey q;
  si_state : l = eMethod -> p_state p = eMethod /\ p_state q = eMethod;
  si_rest : SameRest (p_req p) (p_req q);
  si_line : SameOrBefore a0 b0 (p_req p) (p_req q);
  si_method : after_method l -> r_method (p_req p) = r_method (p_req q);
  si_target : after_line l -> r_path (p_req p) = r_path (p_req q) /\ r_proto (p_req p) = r_proto (p_req q)
}.
Definition rrel (x y : pres) : Prop :=
  match x, y with
  | RPending p, RPending q => p_state p = p_state q /\ sim (p_state p) p q
  | RDone p e, RDone q e' => e = e' /\ SameView (p_req p) (p_req q)
  | RErr p e, RErr q e' => e = e' /\ SameRest (p_req p) (p_req q) /\ SameOrBefore a0 b0 (p_req p) (p_req q)
  | RPanic, RPanic => True
  | RStuck, RStuck => True
  | _, _ => False
  end.
Definition jrel (x y : jump) : Prop :=
  match x, y with
  | Goto l p d, Goto l' q d' => l = l' /\ d = d' /\ l <> eMethod /\ sim l p q
  | Ret r, Ret r' => rrel r r'
  | _, _ => False
  end.

Lemma whole_view : forall a b, SameRest a b -> r_method a = r_method b -> r_path a = r_path b -> r_proto a = r_proto b -> SameView a b.
Proof. intros a b [A1 A2 A3 A4 A5 A6 A7 A8 A9 A10 A11 A12 A13 A14 A15 A16 A17] H1 H2 H3. constructor; assumption. Qed.
Lemma err_rel : forall l p q e, sim l p q -> rrel (RErr p e) (RErr q e).
Proof. intros l p q e S. split; [reflexivity|]. split; [exact (si_rest _ _ _ S)|exact (si_line _ _ _ S)]. Qed.
Lemma rest_method : forall m a b, SameRest a b -> SameRest (set_method m a) (set_method m b).
Proof. intros m a b H. exact H. Qed.
Ltac same := first [assumption | reflexivity | congruence].
Lemma method_rel : forall p q d, sim eMethod p q -> jrel (step_method p d) (step_method q d).
Proof.
  intros p q d S. unfold step_method. rewrite <- (si_start _ _ _ S). destruct (si_state _ _ _ S eq_refl) as [E1 E2].
  assert (C : forall p q mv rest, sim eMethod p q -> jrel
    (match mv with [] => Ret (RErr p ErrBadRequest)
     | _ => let mm := method_parse mv in let p := set_p_req (set_method mm (p_req p)) p in
            match mm with MUnknown => Ret (RErr p ErrMethodNotImplemented) | _ => Goto ePath p rest end end)
    (match mv with [] => Ret (RErr q ErrBadRequest)
     | _ => let mm := method_parse mv in let q := set_p_req (set_method mm (p_req q)) q in
            match mm with MUnknown => Ret (RErr q ErrMethodNotImplemented) | _ => Goto ePath q rest end end)).
  { clear p q S E1 E2 d. intros p q mv rest S. destruct mv as [|x mv]; [exact (err_rel _ _ _ _ S)|]. cbv zeta. generalize (method_parse (x :: mv)). intros mm.
    assert (S1 : sim ePath (set_p_req (set_method mm (p_req p)) p) (set_p_req (set_method mm (p_req q)) q)).
    { destruct S as [A1 A2 A3 A4 A5 A6 A7 A8 A9 A10 A11]. destruct A9 as (B1 & B2 & B3).
      constructor; try same; try discriminate.
      - split; [left; reflexivity|]. split; [exact B2|exact B3].
      - intros [_ H]. contradiction H. reflexivity. }
    destruct mm; try (split; [reflexivity|]; split; [reflexivity|]; split; [discriminate|exact S1]).
    exact (err_rel _ _ _ _ S1). }
  destruct (cut d SP) as [[m rest]|].
  - destruct (buf_seglen (p_start p) =? 0)%Z; [apply C; exact S|].
    destruct (buf_append (p_start p) m) as [b|]; [|exact (err_rel _ _ _ _ S)].
    destruct (buf_finish b) as [mv b']. apply C. destruct S as [A1 A2 A3 A4 A5 A6 A7 A8 A9 A10 A11]. constructor; same.
  - destruct (buf_append (p_start p) d) as [b|]; [|exact (err_rel _ _ _ _ S)].
    cbn [jrel rrel]. cbn [set_p_start p_state]. split; [congruence|]. rewrite E1.
    destruct S as [A1 A2 A3 A4 A5 A6 A7 A8 A9 A10 A11]. constructor; same.
Qed.
Lemma query_rel : forall t a b, SameRest a b -> SameRest (set_query (query_set (r_query a) t) a) (set_query (query_set (r_query b) t) b).
Proof.
  intros t a b [A1 A2 A3 A4 A5 A6 A7 A8 A9 A10 A11 A12 A13 A14 A15 A16 A17]. cbn in A4, A5, A6.
  assert (Q : q_raw (query_set (r_query a) t) = t /\ q_raw (query_set (r_query b) t) = t /\
    q_parsed (query_set (r_query a) t) = false /\ q_parsed (query_set (r_query b) t) = false /\
    kv_pairs (q_params (query_set (r_query a) t)) = kv_pairs (q_params (query_set (r_query b) t))).
  { unfold query_set. rewrite <- A5. destruct (q_parsed (r_query a)); repeat split. exact A6. }
  destruct Q as (Q1 & Q2 & Q3 & Q4 & Q5).
  constructor; try assumption; cbn; congruence.
Qed.
Lemma line_rel : forall p q line, sim ePath p q ->
  match request_line p line, request_line q line with
  | inl r, inl r' => rrel r r'
  | inr p', inr q' => sim eHeaderKey p' q'
  | _, _ => False
  end.
Proof.
  intros p q line S. unfold request_line. destruct (cut_last line SP) as [[reqpath reqproto]|]; [|exact (err_rel _ _ _ _ S)].
  destruct (last_byte reqproto) as [c|]; [|exact I]. generalize (if Byte.eqb c CR then drop_last reqproto else reqproto). intros pr.
  assert (C : forall p q path, sim ePath p q ->
    match
      match path with [] => inl (RErr p ErrBadRequest)
      | _ => match uri_decode path with None => inl (RErr p ErrURIDecoding)
             | Some path => let pr := proto_from_bytes pr in let p := set_p_req (set_proto pr (set_path path (p_req p))) p in
                            match pr with PUnknown => inl (RErr p ErrUnsupportedProtocol) | _ => inr p end end end,
      match path with [] => inl (RErr q ErrBadRequest)
      | _ => match uri_decode path with None => inl (RErr q ErrURIDecoding)
             | Some path => let pr := proto_from_bytes pr in let q := set_p_req (set_proto pr (set_path path (p_req q))) q in
                            match pr with PUnknown => inl (RErr q ErrUnsupportedProtocol) | _ => inr q end end end
    with
    | inl r, inl r' => rrel r r'
    | inr p', inr q' => sim eHeaderKey p' q'
    | _, _ => False
    end).
  { clear p q S. intros p q path S. destruct path as [|x path]; [exact (err_rel _ _ _ _ S)|].
    destruct (uri_decode (x :: path)) as [dp|]; [|exact (err_rel _ _ _ _ S)]. cbv zeta. generalize (proto_from_bytes pr). intros v.
    assert (S1 : sim eHeaderKey (set_p_req (set_proto v (set_path dp (p_req p))) p) (set_p_req (set_proto v (set_path dp (p_req q))) q)).
    { destruct S as [A1 A2 A3 A4 A5 A6 A7 A8 A9 A10 A11]. destruct A9 as (B1 & B2 & B3).
      constructor; try same; try discriminate.
      - split; [exact B1|]. split; left; reflexivity.
      - intros _. exact (A10 ltac:(discriminate)).
      - intros _. split; reflexivity. }
    destruct v; try exact S1. exact (err_rel _ _ _ _ S1). }
  destruct (cut reqpath x3f) as [[path t]|]; [|apply C; exact S].
  apply C. destruct S as [A1 A2 A3 A4 A5 A6 A7 A8 A9 A10 A11]. constructor; try same; try discriminate.
  exact (query_rel t _ _ A8).
Qed.
Lemma path_rel : forall p q d, sim ePath p q -> jrel (step_path p d) (step_path q d).
Proof.
  intros p q d S. unfold step_path. rewrite <- (si_start _ _ _ S). destruct (cut d LF) as [[l rest]|].
  - destruct (buf_append (p_start p) l) as [b|]; [|exact (err_rel _ _ _ _ S)]. destruct (buf_finish b) as [line b'].
    assert (S1 : sim ePath (set_p_start b' p) (set_p_start b' q)).
    { destruct S as [A1 A2 A3 A4 A5 A6 A7 A8 A9 A10 A11]. constructor; try same; try discriminate. }
    pose proof (line_rel _ _ line S1) as R. destruct (request_line (set_p_start b' p) line), (request_line (set_p_start b' q) line); try contradiction; try exact R.
    split; [reflexivity|]. split; [reflexivity|]. split; [discriminate|exact R].
  - destruct (buf_append (p_start p) d) as [b|]; [|exact (err_rel _ _ _ _ S)]. split; [reflexivity|].
    destruct S as [A1 A2 A3 A4 A5 A6 A7 A8 A9 A10 A11]. constructor; try same; try discriminate.
Qed.
Lemma from_line : forall l l' p q p' q', after_line l -> after_line l' -> sim l p q -> 
  p_start p' = p_start q' -> p_key p' = p_key q' -> p_val p' = p_val q' -> p_hnum p' = p_hnum q' -> p_clen p' = p_clen q' ->
  (l' = eHeaderValue -> p_hkey p' = p_hkey q') -> p_req p' = p_req p -> p_req q' = p_req q -> sim l' p' q'.
Proof.
  intros l l' p q p' q' Hl Hl' [A1 A2 A3 A4 A5 A6 A7 A8 A9 A10 A11] H1 H2 H3 H4 H5 H6 H7 H8. constructor; try assumption.
  - intros ->. destruct Hl' as [X _]. contradiction X. reflexivity.
  - rewrite H7, H8. exact A8.
  - rewrite H7, H8. exact A9.
  - intros _. rewrite H7, H8. apply A10. exact (proj1 Hl).
  - intros _. rewrite H7, H8. exact (A11 Hl).
Qed.
Lemma done_rel : forall l p q e, after_line l -> sim l p q -> rrel (RDone (cleanup p) e) (RDone (cleanup q) e).
Proof.
  intros l p q e Hl [A1 A2 A3 A4 A5 A6 A7 A8 A9 A10 A11]. split; [reflexivity|]. cbn [cleanup p_req].
  destruct (A11 Hl) as [X Y]. apply whole_view; [exact A8|apply A10; exact (proj1 Hl)|exact X|exact Y].
Qed.
Ltac line := split; discriminate.
Lemma key_rel : forall cfg p q d, sim eHeaderKey p q -> jrel (step_header_key cfg p d) (step_header_key cfg q d).
Proof.
  intros cfg p q d S. assert (L : after_line eHeaderKey) by line. unfold step_header_key.
  pose proof (si_start _ _ _ S) as E1. pose proof (si_key _ _ _ S) as E2. pose proof (si_val _ _ _ S) as E3.
  pose proof (si_hnum _ _ _ S) as E4. pose proof (si_clen _ _ _ S) as E5.
  destruct d as [|c d].
  - split; [reflexivity|]. apply (from_line eHeaderKey eHeaderKey p q); try assumption; try reflexivity. discriminate.
  - destruct (Byte.eqb c LF); [exact (done_rel _ _ _ _ L S)|]. destruct (Byte.eqb c CR).
    + split; [reflexivity|]. split; [reflexivity|]. split; [discriminate|].
      apply (from_line eHeaderKey eHeaderValueCRLFCR p q); try assumption; try reflexivity; [line|discriminate].
    + rewrite <- E2. destruct (cut (c :: d) x3a) as [[k rest]|].
      * destruct (buf_append (p_key p) k) as [b|]; [|exact (err_rel _ _ _ _ S)]. destruct (buf_finish b) as [key b'].
        cbv zeta. cbn [set_p_hnum p_hnum set_p_hkey set_p_key]. rewrite <- E4.
        assert (S1 : forall l', after_line l' -> sim l' (set_p_hnum (p_hnum p + 1) (set_p_hkey key (set_p_key b' p))) (set_p_hnum (p_hnum q + 1) (set_p_hkey key (set_p_key b' q)))).
        { intros l' Hl'. apply (from_line eHeaderKey l' p q); try assumption; try reflexivity. cbn. congruence. }
        cbn [set_p_hnum p_hnum set_p_hkey set_p_key] in S1. rewrite <- E4 in S1.
        destruct (p_hnum p + 1 >? c_max_headers cfg)%Z; [exact (err_rel _ _ _ _ (S1 eHeaderKey L))|].
        destruct (key_is key (B "content-length")); (split; [reflexivity|]; split; [reflexivity|]; split; [discriminate|]; apply S1; line).
      * destruct (buf_append (p_key p) (c :: d)) as [b|]; [|exact (err_rel _ _ _ _ S)]. split; [reflexivity|].
        apply (from_line eHeaderKey eHeaderKey p q); try assumption; try reflexivity. discriminate.
Qed.
Lemma change_rel : forall l l' p q g, after_line l -> after_line l' -> l' <> eHeaderValue -> sim l p q ->
  (forall a b, SameRest a b -> SameRest (g a) (g b)) ->
  (forall a, r_method (g a) = r_method a /\ r_path (g a) = r_path a /\ r_proto (g a) = r_proto a) ->
  sim l' (set_p_req (g (p_req p)) p) (set_p_req (g (p_req q)) q).
Proof.
  intros l l' p q g Hl Hl' Hv S G1 G2. destruct S as [A1 A2 A3 A4 A5 A6 A7 A8 A9 A10 A11].
  destruct (G2 (p_req p)) as (P1 & P2 & P3). destruct (G2 (p_req q)) as (Q1 & Q2 & Q3).
  constructor; try assumption; cbn [set_p_req p_req].
  - intros E. contradiction.
  - intros ->. destruct Hl' as [X _]. contradiction X. reflexivity.
  - apply G1. exact A8.
  - unfold SameOrBefore in *. rewrite P1, P2, P3, Q1, Q2, Q3. exact A9.
  - intros _. rewrite P1, Q1. apply A10. exact (proj1 Hl).
  - intros _. rewrite P2, P3, Q2, Q3. exact (A11 Hl).
Qed.
Lemma clen_rel : forall p q d, sim eContentLength p q -> jrel (step_content_length p d) (step_content_length q d).
Proof.
  intros p q d S. assert (L : after_line eContentLength) by line. unfold step_content_length.
  pose proof (si_start _ _ _ S) as E1. pose proof (si_key _ _ _ S) as E2. pose proof (si_val _ _ _ S) as E3.
  pose proof (si_hnum _ _ _ S) as E4. pose proof (si_clen _ _ _ S) as E5. rewrite <- E5.
  destruct (clen_loop (p_clen p) d) as [n [d'|]].
  - cbv zeta. assert (S1 : sim eContentLength (set_p_clen n p) (set_p_clen n q)).
    { apply (from_line eContentLength eContentLength p q); try assumption; try reflexivity. discriminate. }
    assert (S2 : forall l', after_line l' -> l' <> eHeaderValue -> sim l' (set_p_req (set_content_length n (p_req (set_p_clen n p))) (set_p_clen n p)) (set_p_req (set_content_length n (p_req (set_p_clen n q))) (set_p_clen n q))).
    { intros l' H1 H2. apply (change_rel eContentLength l' _ _ (set_content_length n)); try assumption.
      - intros a b [A1 A2 A3 A4 A5 A6 A7 A8 A9 A10 A11 A12 A13 A14 A15 A16 A17]. constructor; try assumption. reflexivity.
      - intros a. repeat split. }
    destruct d' as [|c rest]; [exact I|].
    destruct (Byte.eqb c CR); [split; [reflexivity|]; split; [reflexivity|]; split; [discriminate|]; apply S2; [line|discriminate]|].
    destruct (Byte.eqb c LF); [split; [reflexivity|]; split; [reflexivity|]; split; [discriminate|]; apply S2; [line|discriminate]|].
    apply (err_rel eContentLength). apply S2; [line|discriminate].
  - split; [reflexivity|]. apply (from_line eContentLength eContentLength p q); try assumption; try reflexivity. discriminate.
Qed.
Lemma clen_cr_rel : forall p q d, sim eContentLengthCR p q -> jrel (step_content_length_cr p d) (step_content_length_cr q d).
Proof.
  intros p q d S. assert (L : after_line eContentLengthCR) by line. unfold step_content_length_cr.
  pose proof (si_start _ _ _ S) as E1. pose proof (si_key _ _ _ S) as E2. pose proof (si_val _ _ _ S) as E3.
  pose proof (si_hnum _ _ _ S) as E4. pose proof (si_clen _ _ _ S) as E5.
  destruct d as [|c rest].
  - split; [reflexivity|]. apply (from_line eContentLengthCR eContentLengthCR p q); try assumption; try reflexivity. discriminate.
  - destruct (Byte.eqb c LF); [|exact (err_rel _ _ _ _ S)]. split; [reflexivity|]. split; [reflexivity|]. split; [discriminate|].
    apply (from_line eContentLengthCR eHeaderKey p q); try assumption; try reflexivity; [line|discriminate].
Qed.
Lemma apply_rel : forall cfg k v a b, SameRest a b -> SameRest (apply_header cfg k v a) (apply_header cfg k v b).
Proof.
  intros cfg k v a b H.
  assert (H1 : SameRest (set_headers (kv_add (r_headers a) k v) a) (set_headers (kv_add (r_headers b) k v) b)).
  { destruct H as [A1 A2 A3 A4 A5 A6 A7 A8 A9 A10 A11 A12 A13 A14 A15 A16 A17]. cbn in A8. constructor; try assumption.
    cbn. rewrite A8. reflexivity. }
  unfold apply_header. revert H1. generalize (set_headers (kv_add (r_headers a) k v) a) (set_headers (kv_add (r_headers b) k v) b).
  clear H a b. intros a b H1. cbv zeta.
  assert (E : r_encoding a = r_encoding b) by exact (sv_encoding _ _ H1).
  assert (U : forall u, SameRest (set_upgrade u a) (set_upgrade u b)) by (intros u; destruct H1; constructor; try assumption; reflexivity).
  assert (N : forall x, SameRest (set_encoding x a) (set_encoding x b)) by (intros u; destruct H1; constructor; try assumption; reflexivity).
  assert (C : forall x, SameRest (set_connection x a) (set_connection x b)) by (intros u; destruct H1; constructor; try assumption; reflexivity).
  assert (T : forall x, SameRest (set_content_type x a) (set_content_type x b)) by (intros u; destruct H1; constructor; try assumption; reflexivity).
  rewrite E. destruct (parse_encoding_string v (c_max_enc_tokens cfg)) as [toks ch].
  repeat (match goal with |- SameRest (match ?x with _ => _ end) _ => match x with context [match _ with _ => _ end] => fail 1 | _ => destruct x end end);
    try exact H1; try apply U; try apply N; try apply C; apply T.
Qed.
Lemma apply_line : forall cfg k v a, r_method (apply_header cfg k v a) = r_method a /\ r_path (apply_header cfg k v a) = r_path a /\
  r_proto (apply_header cfg k v a) = r_proto a.
Proof.
  intros cfg k v a. unfold apply_header. cbv zeta. destruct (parse_encoding_string v (c_max_enc_tokens cfg)) as [toks ch].
  repeat (match goal with |- context [match ?x with _ => _ end] => match x with context [match _ with _ => _ end] => fail 1 | _ => destruct x end end);
    repeat split.
Qed.
Lemma value_rel : forall cfg p q d, sim eHeaderValue p q -> jrel (step_header_value cfg p d) (step_header_value cfg q d).
Proof.
  intros cfg p q d S. assert (L : after_line eHeaderValue) by line. unfold step_header_value.
  pose proof (si_start _ _ _ S) as E1. pose proof (si_key _ _ _ S) as E2. pose proof (si_val _ _ _ S) as E3.
  pose proof (si_hnum _ _ _ S) as E4. pose proof (si_clen _ _ _ S) as E5. pose proof (si_hkey _ _ _ S eq_refl) as E6. rewrite <- E3.
  assert (S1 : forall b, sim eHeaderValue (set_p_val b p) (set_p_val b q)).
  { intros b. apply (from_line eHeaderValue eHeaderValue p q); try assumption; try reflexivity. intros _. exact E6. }
  destruct (cut d LF) as [[v rest]|].
  - destruct (buf_append (p_val p) v) as [b|]; [|exact (err_rel _ _ _ _ S)].
    destruct (buf_seglen b >? c_max_value cfg)%Z; [exact (err_rel _ _ _ _ (S1 b))|].
    destruct (buf_finish b) as [raw b']. cbv zeta. destruct (last_byte (trim_prefix_spaces raw)) as [c|]; [|exact I].
    split; [reflexivity|]. split; [reflexivity|]. split; [discriminate|].
    assert (K : p_hkey (set_p_val b' q) = p_hkey (set_p_val b' p)) by (symmetry; exact E6). rewrite K.
    apply (change_rel eHeaderValue eHeaderKey _ _ (apply_header cfg (p_hkey (set_p_val b' p)) (if Byte.eqb c CR then drop_last (trim_prefix_spaces raw) else trim_prefix_spaces raw)) L); [line|discriminate|exact (S1 b')| |].
    + intros a b1 H. apply apply_rel. exact H.
    + intros a. apply apply_line.
  - destruct (buf_append (p_val p) d) as [b|]; [|exact (err_rel _ _ _ _ S)].
    destruct (buf_seglen b >? c_max_value cfg)%Z; [exact (err_rel _ _ _ _ (S1 b))|]. split; [reflexivity|].
    apply (from_line eHeaderValue eHeaderValue p q); try assumption; try reflexivity. intros _. exact E6.
Qed.
Lemma crlfcr_rel : forall p q d, sim eHeaderValueCRLFCR p q -> jrel (step_crlfcr p d) (step_crlfcr q d).
Proof.
  intros p q d S. assert (L : after_line eHeaderValueCRLFCR) by line. unfold step_crlfcr.
  pose proof (si_start _ _ _ S) as E1. pose proof (si_key _ _ _ S) as E2. pose proof (si_val _ _ _ S) as E3.
  pose proof (si_hnum _ _ _ S) as E4. pose proof (si_clen _ _ _ S) as E5.
  destruct d as [|c rest].
  - split; [reflexivity|]. apply (from_line eHeaderValueCRLFCR eHeaderValueCRLFCR p q); try assumption; try reflexivity. discriminate.
  - destruct (Byte.eqb c LF); [exact (done_rel _ _ _ _ L S)|exact (err_rel _ _ _ _ S)].
Qed.
Lemma step_rel : forall cfg l p q d, sim l p q -> jrel (step cfg l p d) (step cfg l q d).
Proof.
  intros cfg l p q d S. destruct l; cbn [step].
  - apply method_rel; exact S.
  - apply path_rel; exact S.
  - apply key_rel; exact S.
  - apply clen_rel; exact S.
  - apply clen_cr_rel; exact S.
  - apply value_rel; exact S.
  - apply crlfcr_rel; exact S.
Qed.
Lemma run_rel : forall cfg n l p q d, sim l p q -> rrel (run cfg n l p d) (run cfg n l q d).
Proof.
  intros cfg n. induction n as [|n IH]; intros l p q d S; cbn [run]; [exact I|].
  pose proof (step_rel cfg l p q d S) as J. destruct (step cfg l p d) as [l1 p1 d1|r1], (step cfg l q d) as [l2 p2 d2|r2]; try contradiction.
  - destruct J as (-> & -> & _ & J). apply IH. exact J.
  - exact J.
Qed.
Lemma feed_rel : forall cfg reads p q, p_state p = p_state q -> sim (p_state p) p q -> SameFor a0 b0 (feed cfg p reads) (feed cfg q reads).
Proof.
  intros cfg reads. induction reads as [|d rest IH]; intros p q E S; cbn [feed].
  - split; [reflexivity|]. split; [exact (si_rest _ _ _ S)|exact (si_line _ _ _ S)].
  - pose proof (run_rel cfg (Datatypes.S (List.length d)) (p_state p) p q d S) as R.
    assert (T : parse cfg p d <> RStuck) by apply parse_not_stuck.
    unfold parse in *. rewrite <- E. destruct (run cfg (Datatypes.S (List.length d)) (p_state p) p d), (run cfg (Datatypes.S (List.length d)) (p_state p) q d);
      try contradiction; try (split; [reflexivity|exact R]).
    destruct R as [R1 R2]. apply IH; assumption.
Qed.
End Iso.

Lemma fresh_rel : forall umax kmax vmax p q, Ready umax kmax vmax p -> Ready umax kmax vmax q -> SameRest (p_req p) (p_req q) ->
  sim (p_req p) (p_req q) (p_state p) p q.
Proof.
  intros umax kmax vmax p q (P1 & P2 & P3 & P4 & P5 & P6) (Q1 & Q2 & Q3 & Q4 & Q5 & Q6) H. rewrite P1.
  constructor; try congruence; try discriminate.
  - intros _. split; assumption.
  - split; [right; split; reflexivity|]. split; right; split; reflexivity.
  - intros [X _]. contradiction X. reflexivity.
Qed.
Lemma cleared_rest : forall r1 r2, QueryFresh (r_query r1) -> QueryFresh (r_query r2) -> SameRest (request_clear r1) (request_clear r2).
Proof.
  intros r1 r2 H1 H2. assert (Q : forall q, QueryFresh q -> q_raw (query_set q []) = [] /\ q_parsed (query_set q []) = false /\ kv_pairs (q_params (query_set q [])) = []).
  { intros q H. unfold query_set. unfold QueryFresh in H. destruct (q_parsed q); repeat split. apply H. reflexivity. }
  destruct (Q _ H1) as (A1 & A2 & A3). destruct (Q _ H2) as (B1 & B2 & B3).
  constructor; cbn; try reflexivity; congruence.
Qed.
Lemma cleared_new : forall r, QueryFresh (r_query r) -> SameRest (request_clear r) new_request.
Proof. intros r H. exact (cleared_rest r new_request H (fun _ => eq_refl)). Qed.
Lemma same_bytes : forall cfg umax kmax vmax p q r1 r2 reads, Ready umax kmax vmax p -> Ready umax kmax vmax q ->
  p_req p = request_clear r1 -> QueryFresh (r_query r1) -> p_req q = request_clear r2 -> QueryFresh (r_query r2) ->
  SameFor r1 r2 (feed cfg p reads) (feed cfg q reads).
Proof.
  intros cfg umax kmax vmax p q r1 r2 reads HP HQ E1 F1 E2 F2.
  assert (H : SameFor (p_req p) (p_req q) (feed cfg p reads) (feed cfg q reads)).
  { apply feed_rel; [destruct HP as [-> _]; destruct HQ as [-> _]; reflexivity|].
    apply (fresh_rel umax kmax vmax); try assumption. rewrite E1, E2. apply cleared_rest; assumption. }
  rewrite E1, E2 in H. exact H.
Qed.
Lemma same_as_new : forall cfg umax kmax vmax p r reads, Ready umax kmax vmax p ->
  p_req p = request_clear r -> QueryFresh (r_query r) ->
  SameFor r new_request (feed cfg p reads) (feed cfg (new_parser umax kmax vmax new_request) reads).
Proof.
  intros cfg umax kmax vmax p r reads HP E1 F1.
  exact (same_bytes cfg umax kmax vmax p (new_parser umax kmax vmax new_request) r new_request reads HP
    ltac:(repeat split) E1 F1 eq_refl (fun _ => eq_refl)).
Qed.

(* ---- connections ---- *)
Lemma between_rest : forall CS W umax kmax vmax fbs defs (fresh : CS -> Prop) past1 past2 (st1 st2 : conn CS W),
  Between umax kmax vmax fbs defs fresh past1 st1 -> Between umax kmax vmax fbs defs fresh past2 st2 ->
  SameRest (p_req (k_parser st1)) (p_req (k_parser st2)).
Proof.
  intros CS W umax kmax vmax fbs defs fresh past1 past2 st1 st2 B1 B2.
  assert (G : forall r, (exists enc, r = set_env (Env None [] enc []) new_request) \/ (exists r0, r = request_clear r0 /\ QueryFresh (r_query r0) /\ r_hijacked r0 = false) -> SameRest r new_request).
  { intros r [(enc & ->)|(r0 & -> & F & _)]; [constructor; reflexivity|]. apply cleared_new. exact F. }
  pose proof (G _ (bt_req _ _ _ _ _ _ _ _ B1)) as [A1 A2 A3 A4 A5 A6 A7 A8 A9 A10 A11 A12 A13 A14 A15 A16 A17].
  pose proof (G _ (bt_req _ _ _ _ _ _ _ _ B2)) as [C1 C2 C3 C4 C5 C6 C7 C8 C9 C10 C11 C12 C13 C14 C15 C16 C17].
  constructor; congruence.
Qed.
Lemma told : forall CS W cfg umax kmax vmax fbs defs (fresh : CS -> Prop) past1 past2 (st1 st2 : conn CS W) reads,
  Between umax kmax vmax fbs defs fresh past1 st1 -> Between umax kmax vmax fbs defs fresh past2 st2 ->
  SameFor (p_req (k_parser st1)) (p_req (k_parser st2)) (feed cfg (k_parser st1) reads) (feed cfg (k_parser st2) reads).
Proof.
  intros CS W cfg umax kmax vmax fbs defs fresh past1 past2 st1 st2 reads B1 B2.
  pose proof (bt_ready _ _ _ _ _ _ _ _ B1) as R1. pose proof (bt_ready _ _ _ _ _ _ _ _ B2) as R2.
  apply feed_rel; [destruct R1 as [-> _]; destruct R2 as [-> _]; reflexivity|].
  apply (fresh_rel umax kmax vmax _ _ R1 R2). exact (between_rest _ _ _ _ _ _ _ _ _ _ _ _ B1 B2).
Qed.
Lemma answered : forall CS (cparse : CS -> bytes -> bool -> CS * (bytes * bytes * option cerr)) (fresh : CS -> Prop) max
    cfg umax kmax vmax fbs defs, distinct_names defs ->
  forall W (on_request : W -> request -> hprog W) (on_error : W -> request -> http_error -> hprog W) past1 past2 (st1 st2 : conn CS W) p1 e rs,
  Between umax kmax vmax fbs defs fresh past1 st1 -> Between umax kmax vmax fbs defs fresh past2 st2 ->
  k_world st1 = k_world st2 -> reads_of (k_client st1) = reads_of (k_client st2) ->
  (forall e, Indifferent (fun r => on_error (k_world st1) r e)) ->
  feed cfg (k_parser st1) (reads_of (k_client st1)) = (RErr p1 e, rs) ->
  exists n resp w r1 r2 out1 out2 st1' st2',
    (forall fuel, (n <= fuel)%nat -> serve cparse max cfg on_request on_error fuel st1 = (EndParse, st1') /\
                                     serve cparse max cfg on_request on_error fuel st2 = (EndParse, st2')) /\
    k_world st1' = w /\ k_world st2' = w /\
    cl_out (k_client st1') = cl_out (k_client st1) ++ [out1] /\ cl_out (k_client st2') = cl_out (k_client st2) ++ [out2] /\
    SentIn defs past1 (r_proto r1) r1 (not_nil resp) [out1] /\
    SentIn defs past2 (r_proto r2) r2 (not_nil resp) [out2].
Proof.
  intros CS cparse fresh max cfg umax kmax vmax fbs defs Hd W on_request on_error past1 past2 st1 st2 p1 e rs B1 B2 Hw Hr Hi Hf.
  pose proof (told CS W cfg umax kmax vmax fbs defs fresh past1 past2 st1 st2 (reads_of (k_client st1)) B1 B2) as T.
  rewrite Hf in T. destruct (feed cfg (k_parser st2) (reads_of (k_client st1))) as [x2 rs2] eqn:F2. destruct T as [T1 T2]. cbn [fst snd] in T1, T2.
  destruct x2 as [| |p2 e2| |]; try contradiction. destruct T2 as (<- & T2 & _). subst rs2.
  destruct (Hi e (p_req p1) (p_req p2) T2) as (D1 & D2 & resp & w & a' & b' & E1 & E2).
  destruct (bad_head CS cparse fresh max cfg umax kmax vmax fbs defs Hd W on_request on_error past1 st1 p1 e rs B1 D1 Hf)
    as (n1 & resp1 & w1 & r1 & out1 & st1' & X1 & X2 & X3 & X4 & X5).
  rewrite Hr in F2. rewrite Hw in D2, E2.
  destruct (bad_head CS cparse fresh max cfg umax kmax vmax fbs defs Hd W on_request on_error past2 st2 p2 e rs B2 D2 F2)
    as (n2 & resp2 & w2 & r2 & out2 & st2' & Y1 & Y2 & Y3 & Y4 & Y5).
  rewrite E1 in X1. injection X1 as <- <- <-. rewrite E2 in Y1. injection Y1 as <- <- <-.
  exists (Nat.max n1 n2), resp, w, a', b', out1, out2, st1', st2'. split; [|repeat split; assumption].
  intros fuel Hfu. split; [apply X2|apply Y2]; lia.
Qed.
