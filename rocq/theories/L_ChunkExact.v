(* Lemmas: exactly which readers are sent in chunks. *)
From Verif Require Import M_Base M_Status M_Method M_Proto M_Client M_KeyValue M_Query M_Request M_Parser M_Response
  M_Serializer M_Middleware S_KeyValue S_Head S_Chunk S_Response L_Base L_Tables L_Response L_Response2 L_Response3 L_Attach L_ResponseProps.

Lemma hex_value_small : forall c v, hex_value c = Some v -> (v < 16)%N.
Proof. intros c v. destruct c; vm_compute; intros H; try discriminate; injection H as <-; reflexivity. Qed.
Lemma hex_below : forall l n, hex_number l = Some n -> (n < 16 ^ N.of_nat (List.length l))%N.
Proof.
  unfold hex_number. assert (G : forall l a n, fold_left (fun a c => match a, hex_value c with Some n, Some v => Some (16 * n + v)%N | _, _ => None end) l (Some a) = Some n ->
    (n < (a + 1) * 16 ^ N.of_nat (List.length l))%N).
  { assert (K : forall l n, fold_left (fun a c => match a, hex_value c with Some n, Some v => Some (16 * n + v)%N | _, _ => None end) l None = Some n -> False)
      by (induction l as [|c l IH]; intros n H; [discriminate|exact (IH _ H)]).
    induction l as [|c l IH]; intros a n H; cbn [fold_left] in H.
    - injection H as <-. cbn. lia.
    - destruct (hex_value c) as [v|] eqn:E; [|destruct (K _ _ H)]. apply hex_value_small in E. apply IH in H.
      rewrite Nat2N.inj_succ || (cbn [List.length]; rewrite Nat2N.inj_succ). rewrite N.pow_succ_r'. nia. }
  intros l n H. apply G in H. lia.
Qed.
Lemma hex_long : forall n, (4294967296 <= n)%N -> (8 < List.length (hex_N n))%nat.
Proof.
  intros n H. destruct (le_lt_dec (List.length (hex_N n)) 8) as [L|L]; [|exact L]. exfalso. pose proof (hex_below _ _ (hex_number_hex n)) as K.
  assert (K2 : (16 ^ N.of_nat (List.length (hex_N n)) <= 16 ^ 8)%N) by (apply N.pow_le_mono_r; lia). change (16 ^ 8)%N with 4294967296%N in K2. lia.
Qed.
Definition roomy (size : nat) (d : bytes) : Prop := (List.length d + 12 <= size)%nat.
Definition short (d : bytes) : Prop := (N.of_nat (List.length d) < 4294967296)%N.
Lemma chunk_big : forall d e ev mem c, ~ short d -> fst (fst (fst (write_chunked ((d, e) :: ev) mem c))) = WPanic.
Proof.
  intros d e ev mem c H. unfold short in H. apply N.nlt_ge in H. cbn [write_chunked].
  replace (0 <? List.length d)%nat with true by (symmetry; apply Nat.ltb_lt; lia).
  replace (hex_value_offset <? List.length (hex_N (N.of_nat (List.length d))))%nat with true; [reflexivity|].
  symmetry. apply Nat.ltb_lt. apply hex_long. exact H.
Qed.
Lemma chunked_panics : forall pieces last more mem c, Forall (roomy (List.length mem)) (pieces ++ [last]) -> writes_ok c -> ~ Forall short (pieces ++ [last]) ->
  fst (fst (fst (write_chunked (reader_of pieces last ++ more) mem c))) = WPanic.
Proof.
  induction pieces as [|d pieces IH]; intros last more mem c Hf Hw Hn.
  - change (reader_of [] last ++ more) with ((last, Some REof) :: more). apply chunk_big. intros K. apply Hn. constructor; [exact K|constructor].
  - inversion Hf as [|? ? F Hf']; subst. change (reader_of (d :: pieces) last ++ more) with ((d, None) :: reader_of pieces last ++ more).
    destruct (N.lt_ge_cases (N.of_nat (List.length d)) 4294967296) as [L|L].
    + destruct (chunked_step d None (reader_of pieces last ++ more) mem c (conj F L) Hw) as (mem' & c' & ws & Lm & Hw' & _ & _ & E). rewrite E.
      apply IH; [rewrite Lm; exact Hf'|exact Hw'|]. intros K. apply Hn. constructor; [exact L|exact K].
    + apply chunk_big. unfold short. lia.
Qed.
Theorem chunked_exact : forall fbs defs past s p r f a pieces last more c res s' c' f',
  Served fbs defs past s -> distinct_names defs -> p <> PUnknown -> f_att f = Some a -> (at_size a <= 0)%Z ->
  at_events a = reader_of pieces last ++ more -> r_method r <> HEAD ->
  Forall (roomy (Z.to_nat (Z.max 16 fbs))) (pieces ++ [last]) -> writes_ok c ->
  write_response p r f s c = (res, s', c', f') ->
  (Forall short (pieces ++ [last]) /\ res = WOk /\ exists ws, cl_out c' = cl_out c ++
      [s_buff s ++ response_text (version_of p) (itoa_N (f_code f)) (sent_reason f) (attachment_fields defs past f a) []] ++ ws /\
    Chunked (concat ws) (concat pieces ++ last)) \/
  (~ Forall short (pieces ++ [last]) /\ res = WPanic).
Proof.
  intros fbs defs past s p r f a pieces last more c res s' c' f' Hs Hd Hp Ha Hz He Hm Hf Hw H.
  assert (D : {Forall short (pieces ++ [last])} + {~ Forall short (pieces ++ [last])}).
  { apply Forall_dec. intros d. unfold short. destruct (N.of_nat (List.length d) <? 4294967296)%N eqn:E; [left; apply N.ltb_lt; exact E|right; apply N.ltb_ge in E; lia]. }
  destruct D as [Y|N]; [left|right]; (split; [assumption|]).
  - refine (chunked_attachment fbs defs past s p r f a pieces last more c res s' c' f' Hs Hd Hp Ha Hz He Hm _ Hw H).
    rewrite Forall_forall in *. intros d Hi. split; [apply (Hf d Hi)|apply (Y d Hi)].
  - destruct (att_head_text fbs defs past s p f a Hs Hd Hp) as (E1 & E2 & E3).
    unfold write_response in H. rewrite Ha in H. unfold send_attachment in H. cbv zeta in *.
    replace (0 <? at_size a)%Z with false in * by (symmetry; apply Z.ltb_ge; exact Hz).
    set (s1 := put CRLF _) in *. rewrite E1 in H.
    destruct (client_writes_ok c (s_buff s ++ response_text (version_of p) (itoa_N (f_code f)) (sent_reason f) (attachment_fields defs past f a) []) Hw)
      as (c1 & Ec & Eo & Hw1). rewrite Ec in H. cbn [negb] in H.
    replace (method_eqb (r_method r) HEAD) with false in H by (destruct (r_method r); try reflexivity; congruence).
    rewrite E2, E3, He in H. match type of H with context [write_chunked _ ?m c1] => set (mem := m) in * end.
    assert (Lm : List.length mem = Z.to_nat (Z.max 16 fbs)) by exact (mem_size fbs defs past s Hs). clearbody mem.
    pose proof (chunked_panics pieces last more mem c1) as K. rewrite Lm in K. specialize (K Hf Hw1 N).
    destruct (write_chunked (reader_of pieces last ++ more) mem c1) as [[[w m2] c2] ev2]. cbn [fst] in K. subst w. injection H as <- _ _ _. reflexivity.
Qed.

(* ---- the defaults ---- *)
Lemma named_app : forall a b k, named (a ++ b) k = named a k || named b k.
Proof. intros a b k. unfold named. apply existsb_app. Qed.
Lemma no_values : forall l k, named (map fst l) k = false -> all_values l k = [].
Proof.
  induction l as [|[n v] l IH]; intros k H; [reflexivity|]. unfold named in H. cbn [map existsb fst] in H. apply orb_false_iff in H. destruct H as [H1 H2].
  specialize (IH k H2). unfold all_values in *. cbn [filter map fst]. rewrite same_keyb_sym || idtac.
  match goal with |- context [if ?b then _ else _] => replace b with false by (symmetry; first [exact H1 | rewrite same_keyb_sym; exact H1]) end. exact IH.
Qed.
Theorem defaults_exact : forall fbs defs past s p r f c res s' c' f' k v,
  Served fbs defs past s -> distinct_names defs -> p <> PUnknown -> f_att f = None -> write_ok c ->
  write_response p r f s c = (res, s', c', f') -> In (k, v) defs ->
  (forall k', In k' [B "Content-Type"; B "Transfer-Encoding"; B "Set-Cookie"; B "Content-Length"] -> ~ same_key k' k) ->
  exists fs, cl_out c' = cl_out c ++ [s_buff s ++ response_text (version_of p) (itoa_N (f_code f)) (sent_reason f) fs
    (if method_eqb (r_method r) HEAD then [] else f_body f)] /\
   (all_values fs k = (if named (names f) k then all_values (f_headers f) k else [v]) <-> named (names f) k = true \/ named past k = false).
Proof.
  intros fbs defs past s p r f c res s' c' f' k v H1 H2 H3 H4 H5 H6 H7 H8.
  destruct (defaults_sent fbs defs past s p r f c res s' c' f' k v H1 H2 H3 H4 H5 H6 H7 H8) as (fs & E & Ef). exists fs. split; [exact E|].
  rewrite Ef, named_app. destruct (named (names f) k) eqn:En; [rewrite orb_true_r, app_nil_r; split; auto|].
  rewrite (no_values (f_headers f) k En), orb_false_r. destruct (named past k); cbn [app]; split; intros K; try reflexivity; try discriminate; auto.
  destruct K as [K|K]; discriminate.
Qed.
