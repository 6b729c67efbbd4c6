(* Lemmas behind C22-C24: attachments. *)
From Verif Require Import M_Base M_Status M_Method M_Proto M_Client M_Request M_Response M_Serializer M_Body
  S_Head S_KeyValue S_Chunk S_Response L_Base L_KeyValue L_Tables L_Response L_Response2 L_Response3.

(* ---- hexadecimal sizes ---- *)
Definition is_hexd (x : byte) : Prop := exists d, (d < 16)%N /\ x = digit d.
Lemma hex_value_digit : forall d, (d < 16)%N -> hex_value (digit d) = Some d.
Proof.
  intros d H. destruct d as [|d]; [reflexivity|].
  do 4 (destruct d as [d|d|]; try reflexivity; try lia).
Qed.
Lemma hex_number_fold : forall l, Forall is_hexd l -> hex_number l = Some (digits_val 16 l).
Proof.
  intros l H. unfold hex_number, digits_val. generalize 0%N as a. induction H as [|x l (d & Hd & ->) H IH]; intros a; [reflexivity|].
  cbn [fold_left]. rewrite hex_value_digit by exact Hd. rewrite digit_val_digit by exact Hd. rewrite IH. f_equal. f_equal. lia.
Qed.
Lemma digits_aux_hexd : forall fuel n acc, Forall is_hexd acc -> Forall is_hexd (digits_aux fuel 16 n acc).
Proof.
  induction fuel as [|fuel IH]; intros n acc H; [exact H|]. cbn [digits_aux].
  assert (K : Forall is_hexd (digit (n mod 16) :: acc)).
  { constructor; [|exact H]. exists (n mod 16)%N. split; [apply N.mod_lt; lia|reflexivity]. }
  destruct (n <? 16)%N; [exact K|]. apply IH. exact K.
Qed.
Lemma hex_number_hex : forall n, hex_number (hex_N n) = Some n.
Proof.
  intros n. rewrite hex_number_fold by (apply digits_aux_hexd; constructor). unfold hex_N. rewrite digits_round by lia. reflexivity.
Qed.
Lemma hex_nonnil : forall n, hex_N n <> [].
Proof. intros n. apply digits_aux_nonnil. right. lia. Qed.
Lemma digits_aux_len : forall fuel n acc m, (1 <= m)%nat -> (n < 16 ^ N.of_nat m)%N ->
  (List.length (digits_aux fuel 16 n acc) <= List.length acc + m)%nat.
Proof.
  induction fuel as [|fuel IH]; intros n acc m Hm Hn; cbn [digits_aux]; [lia|].
  destruct (n <? 16)%N eqn:E; [cbn; lia|]. apply N.ltb_ge in E.
  destruct m as [|[|m]]; [lia|cbn in Hn; lia|].
  specialize (IH (n / 16)%N (digit (n mod 16) :: acc) (S m)). cbn [List.length] in IH.
  assert (n / 16 < 16 ^ N.of_nat (S m))%N.
  { apply N.div_lt_upper_bound; [lia|]. rewrite <- N.pow_succ_r'. rewrite <- Nat2N.inj_succ. exact Hn. }
  specialize (IH ltac:(lia) H). lia.
Qed.
Lemma hex_len : forall n, (n < 4294967296)%N -> (List.length (hex_N n) <= 8)%nat.
Proof. intros n H. apply (digits_aux_len _ n [] 8); [lia|exact H]. Qed.

(* ---- the file buffer ---- *)
Lemma split_len : forall (n : nat) (l : bytes), (n <= List.length l)%nat -> exists a b, l = a ++ b /\ List.length a = n.
Proof.
  intros n l H. exists (firstn n l), (skipn n l). split; [symmetry; apply firstn_skipn|]. rewrite firstn_length. lia.
Qed.
Lemma overwrite_app : forall a b c d off, List.length a = off -> List.length b = List.length d ->
  overwrite (a ++ b ++ c) off d = a ++ d ++ c.
Proof.
  intros a b c d off <- Hb. unfold overwrite.
  rewrite (firstn_all2 (n := List.length (a ++ b ++ c) - List.length a) d) by (rewrite !app_length; lia).
  rewrite firstn_app, Nat.sub_diag, firstn_all. cbn [firstn]. rewrite app_nil_r. f_equal. f_equal.
  rewrite skipn_app. rewrite skipn_all2 by lia. cbn [app].
  replace (List.length a + List.length d - List.length a)%nat with (List.length b) by lia.
  rewrite skipn_app, skipn_all, Nat.sub_diag. reflexivity.
Qed.
Lemma slice_app : forall a b c i j, List.length a = i -> (i + List.length b)%nat = j -> slice (a ++ b ++ c) i j = b.
Proof.
  intros a b c i j <- <-. unfold slice. rewrite skipn_app, skipn_all, Nat.sub_diag. cbn [app skipn].
  replace (List.length a + List.length b - List.length a)%nat with (List.length b) by lia.
  rewrite firstn_app, firstn_all, Nat.sub_diag. cbn. apply app_nil_r.
Qed.
Lemma chunk_written : forall mem d,
  let n := List.length d in let hex := hex_N (N.of_nat n) in
  (buff_offset + n + crlf_size <= List.length mem)%nat -> (List.length hex <= hex_value_offset)%nat ->
  let mem1 := overwrite mem buff_offset d in
  let mem2 := overwrite mem1 0 hex in
  let blank := (hex_value_offset - List.length hex)%nat in
  let mem3 := overwrite mem2 blank (slice mem2 0 (List.length hex)) in
  let mem4 := overwrite mem3 hex_value_offset CRLF in
  let mem5 := overwrite mem4 (buff_offset + n) CRLF in
  slice mem5 blank (buff_offset + n + crlf_size) = hex ++ CRLF ++ d ++ CRLF.
Proof.
  intros mem d n hex Hl Hh. clearbody hex. unfold buff_offset, hex_value_offset, crlf_size in *. cbv zeta.
  destruct (split_len 10 mem) as (p & q & -> & Lp); [lia|]. rewrite app_length in Hl.
  destruct (split_len n q) as (q1 & q2 & -> & Lq1); [lia|]. rewrite app_length in Hl.
  destruct (split_len 2 q2) as (q3 & q4 & -> & Lq3); [lia|].
  rewrite overwrite_app by (subst n; lia).
  destruct (split_len (List.length hex) p) as (p1 & p2 & -> & Lp1); [lia|]. rewrite app_length in Lp.
  assert (E2 : overwrite ((p1 ++ p2) ++ d ++ q3 ++ q4) 0 hex = (hex ++ p2) ++ d ++ q3 ++ q4).
  { rewrite <- !app_assoc. apply (overwrite_app [] p1 (p2 ++ d ++ q3 ++ q4) hex 0); [reflexivity|exact Lp1]. }
  rewrite E2.
  assert (E3 : slice ((hex ++ p2) ++ d ++ q3 ++ q4) 0 (List.length hex) = hex).
  { rewrite <- !app_assoc. apply (slice_app [] hex); reflexivity. }
  rewrite E3.
  assert (Lx : List.length (hex ++ p2) = 10%nat) by (rewrite app_length; lia).
  set (x := hex ++ p2) in *. clearbody x.
  destruct (split_len (8 - List.length hex) x) as (a & x1 & -> & La); [lia|]. rewrite app_length in Lx.
  destruct (split_len (List.length hex) x1) as (b & x2 & -> & Lb); [lia|]. rewrite app_length in Lx.
  assert (E4 : overwrite ((a ++ b ++ x2) ++ d ++ q3 ++ q4) (8 - List.length hex) hex = (a ++ hex) ++ x2 ++ d ++ q3 ++ q4).
  { rewrite <- !app_assoc. apply overwrite_app; assumption. }
  rewrite E4. assert (L8 : List.length (a ++ hex) = 8%nat) by (rewrite app_length; lia).
  rewrite (overwrite_app (a ++ hex) x2 (d ++ q3 ++ q4) CRLF 8) by (solve [exact L8 | cbn [List.length CRLF]; lia]).
  assert (E5 : overwrite ((a ++ hex) ++ CRLF ++ d ++ q3 ++ q4) (8 + 2 + n) CRLF = (a ++ hex ++ CRLF ++ d) ++ CRLF ++ q4).
  { replace ((a ++ hex) ++ CRLF ++ d ++ q3 ++ q4) with ((a ++ hex ++ CRLF ++ d) ++ q3 ++ q4) by (rewrite <- !app_assoc; reflexivity).
    apply overwrite_app; [|cbn [List.length CRLF]; lia]. rewrite !app_length. rewrite app_length in L8. cbn [List.length CRLF]. subst n. lia. }
  rewrite E5.
  replace ((a ++ hex ++ CRLF ++ d) ++ CRLF ++ q4) with (a ++ (hex ++ CRLF ++ d ++ CRLF) ++ q4) by (rewrite <- !app_assoc; reflexivity).
  apply slice_app; [exact La|]. rewrite !app_length. cbn [List.length CRLF]. subst n. lia.
Qed.

(* ---- C22 ---- *)
Lemma writes_ok_head : forall c, writes_ok c -> write_ok c.
Proof. intros c H. unfold writes_ok, write_ok in *. destruct H; [reflexivity|assumption]. Qed.
Lemma client_writes_ok : forall c d, writes_ok c ->
  exists c', client_write c d = (true, c') /\ cl_out c' = cl_out c ++ [d] /\ writes_ok c'.
Proof.
  intros c d H. destruct (client_write_ok c d (writes_ok_head c H)) as (c' & E & Eo & Ew). exists c'.
  split; [exact E|]. split; [exact Eo|]. unfold writes_ok in *. rewrite Ew. destruct H; [constructor|assumption].
Qed.
(* one step with data or without *)
Lemma chunked_step : forall d e ev mem c, fits (List.length mem) d -> writes_ok c ->
  exists mem' c' ws, List.length mem' = List.length mem /\ writes_ok c' /\ cl_out c' = cl_out c ++ ws /\
    (forall w t, Chunked w t -> Chunked (concat ws ++ w) (d ++ t)) /\
    write_chunked ((d, e) :: ev) mem c =
      match e with
      | None => write_chunked ev mem' c'
      | Some REof => let '(ok, c2) := client_write c' chunked_finalizer in ((if ok then WOk else WNet), mem', c2, ev)
      | Some RFail => (WClose, mem', c', ev)
      end.
Proof.
  intros d e ev mem c [F1 F2] Hw. cbn [write_chunked].
  destruct (0 <? List.length d)%nat eqn:E0.
  - pose proof (hex_len _ F2) as Lh. set (hex := hex_N (N.of_nat (List.length d))) in *.
    replace (hex_value_offset <? List.length hex)%nat with false by (symmetry; apply Nat.ltb_ge; exact Lh).
    replace (List.length (overwrite mem buff_offset d) <? buff_offset + List.length d + crlf_size)%nat with false.
    2:{ symmetry. apply Nat.ltb_ge. rewrite overwrite_length_le. unfold buff_offset, hex_value_offset, crlf_size. lia. }
    assert (W : (buff_offset + List.length d + crlf_size <= List.length mem)%nat) by (unfold buff_offset, hex_value_offset, crlf_size; lia).
    pose proof (chunk_written mem d W Lh) as CW. cbv zeta in CW. fold hex in CW.
    set (mem5 := overwrite (overwrite (overwrite _ _ _) _ _) _ _) in *.
    destruct (client_writes_ok c (hex ++ CRLF ++ d ++ CRLF) Hw) as (c2 & Ec & Eo & Hw2).
    exists mem5, c2, [hex ++ CRLF ++ d ++ CRLF].
    split; [subst mem5; rewrite !overwrite_length_le; reflexivity|]. split; [exact Hw2|]. split; [exact Eo|]. split.
    + intros w t Hc. cbn [concat]. rewrite app_nil_r, <- !app_assoc. apply Ch_more; [apply hex_nonnil| |apply hex_number_hex|exact Hc].
      destruct d; [discriminate E0|discriminate].
    + rewrite CW, Ec. reflexivity.
  - assert (d = []) by (destruct d; [reflexivity|discriminate E0]). subst d.
    exists (overwrite mem buff_offset []), c, []. split; [apply overwrite_length_le|]. split; [exact Hw|].
    split; [rewrite app_nil_r; reflexivity|]. split; [intros w t Hc; exact Hc|]. reflexivity.
Qed.
Lemma chunked_all : forall pieces last more mem c, Forall (fits (List.length mem)) (pieces ++ [last]) -> writes_ok c ->
  exists mem' c' ws, write_chunked (reader_of pieces last ++ more) mem c = (WOk, mem', c', more) /\
    cl_out c' = cl_out c ++ ws /\ Chunked (concat ws) (concat pieces ++ last).
Proof.
  induction pieces as [|d pieces IH]; intros last more mem c Hf Hw.
  - inversion Hf as [|? ? F _]; subst. destruct (chunked_step last (Some REof) more mem c F Hw) as (mem' & c' & ws & _ & Hw' & Eo & Hc & E).
    change (reader_of [] last ++ more) with ((last, Some REof) :: more). rewrite E.
    destruct (client_writes_ok c' chunked_finalizer Hw') as (c2 & E2 & Eo2 & _). rewrite E2.
    exists mem', c2, (ws ++ [chunked_finalizer]). split; [reflexivity|]. split; [rewrite Eo2, Eo, <- app_assoc; reflexivity|].
    rewrite concat_app. cbn [concat]. rewrite <- (app_nil_r ([] ++ last)). cbn [app]. apply Hc. rewrite app_nil_r.
    apply (Ch_last (B "0")); [discriminate|reflexivity].
  - inversion Hf as [|? ? F Hf']; subst. destruct (chunked_step d None (reader_of pieces last ++ more) mem c F Hw) as (mem' & c' & ws & Lm & Hw' & Eo & Hc & E).
    change (reader_of (d :: pieces) last ++ more) with ((d, None) :: reader_of pieces last ++ more). rewrite E.
    destruct (IH last more mem' c') as (mem2 & c2 & ws2 & E2 & Eo2 & Hc2); [rewrite Lm; exact Hf'|exact Hw'|].
    exists mem2, c2, (ws ++ ws2). split; [exact E2|]. split; [rewrite Eo2, Eo, app_assoc; reflexivity|].
    rewrite concat_app. cbn [concat]. rewrite <- app_assoc. apply Hc. exact Hc2.
Qed.
(* a reader that fails leaves the body unfinished *)
Lemma chunked_fail : forall pieces last more mem c, Forall (fits (List.length mem)) (pieces ++ [last]) -> writes_ok c ->
  exists mem' c' ws, write_chunked (map (fun d => (d, None)) pieces ++ (last, Some RFail) :: more) mem c = (WClose, mem', c', more) /\
    cl_out c' = cl_out c ++ ws /\ forall w t, Chunked w t -> Chunked (concat ws ++ w) (concat pieces ++ last ++ t).
Proof.
  induction pieces as [|d pieces IH]; intros last more mem c Hf Hw.
  - inversion Hf as [|? ? F _]; subst. destruct (chunked_step last (Some RFail) more mem c F Hw) as (mem' & c' & ws & _ & Hw' & Eo & Hc & E).
    cbn [map app]. rewrite E. exists mem', c', ws. split; [reflexivity|]. split; [exact Eo|]. exact Hc.
  - inversion Hf as [|? ? F Hf']; subst. cbn [map app].
    destruct (chunked_step d None (map (fun d => (d, None)) pieces ++ (last, Some RFail) :: more) mem c F Hw) as (mem' & c' & ws & Lm & Hw' & Eo & Hc & E).
    rewrite E. destruct (IH last more mem' c') as (mem2 & c2 & ws2 & E2 & Eo2 & Hc2); [rewrite Lm; exact Hf'|exact Hw'|].
    exists mem2, c2, (ws ++ ws2). split; [exact E2|]. split; [rewrite Eo2, Eo, app_assoc; reflexivity|].
    intros w t Hwt. rewrite concat_app. cbn [concat]. rewrite <- !app_assoc. apply Hc. apply Hc2. exact Hwt.
Qed.
(* ---- C23 ---- *)
Lemma plain_all : forall pieces last more mem c, Forall (fun d => (List.length d <= List.length mem)%nat) pieces -> writes_ok c ->
  exists mem' c', write_plain (reader_of pieces last ++ more) mem c = (WOk, mem', c', more) /\ cl_out c' = cl_out c ++ pieces.
Proof.
  induction pieces as [|d pieces IH]; intros last more mem c Hf Hw.
  - exists (overwrite mem 0 last), c. split; [reflexivity|]. symmetry. apply app_nil_r.
  - inversion Hf as [|? ? F Hf']; subst. change (reader_of (d :: pieces) last ++ more) with ((d, None) :: reader_of pieces last ++ more).
    cbn [write_plain]. replace (_ <? _)%nat with false by (symmetry; apply Nat.ltb_ge; rewrite overwrite_length_le; exact F).
    assert (E : firstn (List.length d) (overwrite mem 0 d) = d).
    { destruct (split_len (List.length d) mem F) as (a & b & -> & La). pose proof (overwrite_app [] a b d 0 eq_refl La) as K. cbn [app] in K. rewrite K.
      rewrite firstn_app, firstn_all, Nat.sub_diag. cbn. apply app_nil_r. }
    rewrite E. destruct (client_writes_ok c d Hw) as (c2 & Ec & Eo & Hw2). rewrite Ec.
    destruct (IH last more (overwrite mem 0 d) c2) as (mem2 & c3 & E3 & Eo3).
    + rewrite overwrite_length_le. exact Hf'.
    + exact Hw2.
    + exists mem2, c3. split; [exact E3|]. rewrite Eo3, Eo, <- app_assoc. reflexivity.
Qed.

(* ---- a whole response with an attachment ---- *)

(* ---- a whole response with an attachment ---- *)
Lemma att_head_text : forall fbs defs past s p f a, Served fbs defs past s -> distinct_names defs -> p <> PUnknown ->
  let f1 := if (0 <? at_size a)%Z then f else set_te (B "chunked") f in
  let s0 := render_response_line f (render_protocol p s) in
  let s1 := put CRLF (if (0 <? at_size a)%Z then render_content_length (at_size a) (render_headers f1 s0) else render_headers f1 s0) in
  s_buff s1 = s_buff s ++ response_text (version_of p) (itoa_N (f_code f)) (sent_reason f) (attachment_fields defs past f a) [] /\
  s_filebuf s1 = s_filebuf s /\ s_filesize s1 = s_filesize s.
Proof.
  intros fbs defs past s p f a Hs Hd Hp f1 s0 s1. apply served_inv in Hs.
  assert (Ed : s_defaults s0 = map (mark past) defs).
  { subst s0. rewrite render_line_text. exact (si_defaults _ _ _ _ Hs Hd). }
  assert (E0 : s_buff s0 = s_buff s ++ version_of p ++ [SP] ++ itoa_N (f_code f) ++ [SP] ++ sent_reason f ++ CRLF).
  { subst s0. rewrite render_line_text. unfold render_protocol. rewrite !put_buff, (proto_version p Hp). rewrite <- ?app_assoc. reflexivity. }
  assert (Ef : s_filebuf s0 = s_filebuf s /\ s_filesize s0 = s_filesize s) by (subst s0; rewrite render_line_text; split; reflexivity).
  clearbody s0. subst s1. rewrite render_headers_text. rewrite Ed, excl_mark by exact Hd. rewrite headers_text_fields by exact Hd.
  assert (En : names f1 = names f) by (subst f1; destruct (0 <? at_size a)%Z; reflexivity). rewrite En.
  split.
  - unfold attachment_fields, response_text. fold (te_fields f). subst f1. destruct (0 <? at_size a)%Z.
    + unfold render_content_length, put, set_defaults. cbn [s_buff]. rewrite E0. rewrite !map_app, !concat_app.
      change (map field_text [(B "Content-Length", itoa (at_size a))]) with [B "Content-Length: " ++ itoa (at_size a) ++ CRLF].
      cbn [concat]. rewrite ?app_nil_r, <- ?app_assoc. reflexivity.
    + unfold put, set_defaults. cbn [s_buff]. rewrite E0. rewrite !map_app, !concat_app.
      change (te_fields (set_te (B "chunked") f)) with [(B "Transfer-Encoding", B "chunked")].
      change (f_headers (set_te (B "chunked") f)) with (f_headers f). change (f_ctype (set_te (B "chunked") f)) with (f_ctype f).
      rewrite ?app_nil_r, <- ?app_assoc. reflexivity.
  - destruct (0 <? at_size a)%Z; exact Ef.
Qed.
Lemma mem_size : forall fbs defs past s, Served fbs defs past s ->
  List.length (match s_filebuf s with Some m => m | None => repeat x00 (s_filesize s) end) = Z.to_nat (Z.max 16 fbs).
Proof.
  intros fbs defs past s Hs. apply served_inv in Hs. rewrite <- (si_size _ _ _ _ Hs).
  destruct (s_filebuf s) as [m|] eqn:E; [exact (si_mem _ _ _ _ Hs m E)|apply repeat_length].
Qed.
Theorem chunked_attachment : forall fbs defs past s p r f a pieces last more c res s' c' f',
  Served fbs defs past s -> distinct_names defs -> p <> PUnknown -> f_att f = Some a -> (at_size a <= 0)%Z ->
  at_events a = reader_of pieces last ++ more -> r_method r <> HEAD ->
  Forall (fits (Z.to_nat (Z.max 16 fbs))) (pieces ++ [last]) -> writes_ok c ->
  write_response p r f s c = (res, s', c', f') ->
  res = WOk /\ exists ws, cl_out c' = cl_out c ++
      [s_buff s ++ response_text (version_of p) (itoa_N (f_code f)) (sent_reason f) (attachment_fields defs past f a) []] ++ ws /\
    Chunked (concat ws) (concat pieces ++ last).
Proof.
  intros fbs defs past s p r f a pieces last more c res s' c' f' Hs Hd Hp Ha Hz He Hm Hf Hw H.
  destruct (att_head_text fbs defs past s p f a Hs Hd Hp) as (E1 & E2 & E3).
  unfold write_response in H. rewrite Ha in H. unfold send_attachment in H. cbv zeta in *.
  replace (0 <? at_size a)%Z with false in * by (symmetry; apply Z.ltb_ge; exact Hz).
  set (s1 := put CRLF _) in *. rewrite E1 in H.
  destruct (client_writes_ok c (s_buff s ++ response_text (version_of p) (itoa_N (f_code f)) (sent_reason f) (attachment_fields defs past f a) []) Hw)
    as (c1 & Ec & Eo & Hw1). rewrite Ec in H. cbn [negb] in H.
  replace (method_eqb (r_method r) HEAD) with false in H by (destruct (r_method r); try reflexivity; congruence).
  rewrite E2, E3, He in H. match type of H with context [write_chunked _ ?m c1] => set (mem := m) in * end.
  assert (Lm : List.length mem = Z.to_nat (Z.max 16 fbs)) by exact (mem_size fbs defs past s Hs). clearbody mem.
  destruct (chunked_all pieces last more mem c1) as (mem' & c2 & ws & W & Eo2 & Hc); [rewrite Lm; exact Hf|exact Hw1|].
  rewrite W in H. injection H as <- <- <- <-. split; [reflexivity|]. exists ws. split; [|exact Hc].
  rewrite Eo2, Eo, <- app_assoc. reflexivity.
Qed.
Theorem plain_attachment : forall fbs defs past s p r f a pieces last more c res s' c' f',
  Served fbs defs past s -> distinct_names defs -> p <> PUnknown -> f_att f = Some a -> (0 < at_size a)%Z ->
  at_events a = reader_of pieces last ++ more -> r_method r <> HEAD ->
  Forall (fun d => (List.length d <= Z.to_nat (Z.max 16 fbs))%nat) pieces -> writes_ok c ->
  write_response p r f s c = (res, s', c', f') ->
  res = WOk /\ cl_out c' = cl_out c ++
      [s_buff s ++ response_text (version_of p) (itoa_N (f_code f)) (sent_reason f) (attachment_fields defs past f a) []] ++ pieces.
Proof.
  intros fbs defs past s p r f a pieces last more c res s' c' f' Hs Hd Hp Ha Hz He Hm Hf Hw H.
  destruct (att_head_text fbs defs past s p f a Hs Hd Hp) as (E1 & E2 & E3).
  unfold write_response in H. rewrite Ha in H. unfold send_attachment in H. cbv zeta in *.
  replace (0 <? at_size a)%Z with true in * by (symmetry; apply Z.ltb_lt; exact Hz).
  set (s1 := put CRLF _) in *. rewrite E1 in H.
  destruct (client_writes_ok c (s_buff s ++ response_text (version_of p) (itoa_N (f_code f)) (sent_reason f) (attachment_fields defs past f a) []) Hw)
    as (c1 & Ec & Eo & Hw1). rewrite Ec in H. cbn [negb] in H.
  replace (method_eqb (r_method r) HEAD) with false in H by (destruct (r_method r); try reflexivity; congruence).
  rewrite E2, E3, He in H. match type of H with context [write_plain _ ?m c1] => set (mem := m) in * end.
  assert (Lm : List.length mem = Z.to_nat (Z.max 16 fbs)) by exact (mem_size fbs defs past s Hs). clearbody mem.
  destruct (plain_all pieces last more mem c1) as (mem' & c2 & W & Eo2); [rewrite Lm; exact Hf|exact Hw1|].
  rewrite W in H. injection H as <- <- <- <-. split; [reflexivity|].
  rewrite Eo2, Eo, <- app_assoc. reflexivity.
Qed.
(* ---- C24: what is closed ---- *)
Theorem attachment_closed : forall p r f a s c res s' c' f', f_att f = Some a -> r_method r <> HEAD -> write_ok c ->
  write_response p r f s c = (res, s', c', f') -> res <> WPanic -> res <> WStuck ->
  exists a', f_att f' = Some a' /\ at_closes a' = (if at_closer a then S (at_closes a) else at_closes a).
Proof.
  intros p r f a s c res s' c' f' Ha Hm Hw H N1 N2. unfold write_response in H. rewrite Ha in H. unfold send_attachment in H. cbv zeta in H.
  set (s1 := put CRLF _) in *. destruct (client_write_ok c (s_buff s1) Hw) as (c1 & Ec & _). rewrite Ec in H. cbn [negb] in H.
  replace (method_eqb (r_method r) HEAD) with false in H by (destruct (r_method r); try reflexivity; congruence).
  match type of H with context [if (0 <? at_size a)%Z then write_plain ?x ?m ?y else write_chunked ?x ?m ?y] =>
    destruct (if (0 <? at_size a)%Z then write_plain x m y else write_chunked x m y) as [[[w m2] c2] ev2] end.
  destruct w; injection H as <- <- <- <-; try congruence; eexists; (split; [reflexivity|reflexivity]).
Qed.
(* ---- C19 ---- *)
Lemma in_split_sep : forall c a b, ~ In c a -> split_at c (a ++ c :: b) = a :: split_at c b.
Proof.
  intros c a. induction a as [|x a IH]; intros b H; cbn [app split_at].
  - rewrite beq_refl. reflexivity.
  - replace (Byte.eqb x c) with false by (symmetry; apply beq_neq; intros ->; apply H; left; reflexivity).
    rewrite IH; [reflexivity|]. intros Hi. apply H. right. exact Hi.
Qed.
Lemma split_single : forall c a, ~ In c a -> split_at c a = [a].
Proof.
  intros c a. induction a as [|x a IH]; intros H; cbn [split_at]; [reflexivity|].
  replace (Byte.eqb x c) with false by (symmetry; apply beq_neq; intros ->; apply H; left; reflexivity).
  rewrite IH; [reflexivity|]. intros Hi. apply H. right. exact Hi.
Qed.
Lemma split_join : forall l x, ~ In x3b x -> Forall (fun a => ~ In x3b a) l ->
  split_at x3b (join (B "; ") (x :: l)) = x :: map (fun a => SP :: a) l.
Proof.
  induction l as [|y l IH]; intros x Hx Hl; [apply split_single; exact Hx|].
  inversion Hl as [|? ? Hy Hl']; subst.
  change (join (B "; ") (x :: y :: l)) with (x ++ x3b :: (SP :: join (B "; ") (y :: l))).
  rewrite in_split_sep by exact Hx. f_equal.
  assert (E : SP :: join (B "; ") (y :: l) = join (B "; ") ((SP :: y) :: l)) by (destruct l; reflexivity).
  rewrite E, IH; [reflexivity| |exact Hl']. intros [Hi|Hi]; [discriminate Hi|exact (Hy Hi)].
Qed.
Definition good_attr (a : bytes * option bytes) : Prop :=
  ~ In x3b (fst a) /\ ~ In x3d (fst a) /\ trim (fst a) = fst a /\
  match snd a with Some v => ~ In x3b v /\ trim v = v | None => True end.
Lemma read_attr_text : forall a, good_attr a -> read_attribute (SP :: attribute_text a) = a.
Proof.
  intros [n o] (H1 & H2 & H3 & H4). unfold read_attribute, attribute_text. cbn [fst snd] in *. destruct o as [v|].
  - change (SP :: n ++ B "=" ++ v) with ((SP :: n) ++ x3d :: v). rewrite before_byte_app.
    + rewrite trim_sp, H3. destruct H4 as [_ ->]. reflexivity.
    + intros [Hi|Hi]; [discriminate Hi|exact (H2 Hi)].
  - rewrite before_byte_none by (intros [Hi|Hi]; [discriminate Hi|exact (H2 Hi)]). rewrite trim_sp, H3. reflexivity.
Qed.
Lemma itoa_plain : forall z, (0 <= z)%Z -> ~ In x3b (itoa z) /\ trim (itoa z) = itoa z.
Proof.
  intros z Hz. replace z with (Z.of_nat (Z.to_nat z)) by lia. rewrite itoa_nat. split; [|apply trim_itoa].
  assert (H : Forall (fun x => is_digit x = true) (itoa_N (N.of_nat (Z.to_nat z)))) by (apply digits_aux_digit; constructor).
  rewrite Forall_forall in H. intros Hi. specialize (H _ Hi). vm_compute in H. discriminate H.
Qed.
Definition name_okb (n : bytes) : bool :=
  forallb (fun x => negb (Byte.eqb x x3b) && negb (Byte.eqb x x3d)) n && beqb (trim n) n.
Lemma name_ok : forall n, name_okb n = true -> ~ In x3b n /\ ~ In x3d n /\ trim n = n.
Proof.
  intros n H. unfold name_okb in H. apply andb_true_iff in H. destruct H as [H1 H2]. apply beqb_eq in H2. rewrite forallb_forall in H1.
  split; [|split; [|exact H2]]; intros Hi; specialize (H1 _ Hi); cbn in H1; discriminate H1.
Qed.
Lemma attributes_good : forall n c, name_okb n = true -> PlainCookie c -> Forall good_attr (attributes n c).
Proof.
  intros n c Hn (_ & _ & _ & P & D & E & S). unfold attributes.
  assert (K : forall m o, name_okb m = true -> match o with Some v => ~ In x3b v /\ trim v = v | None => True end -> good_attr (m, o)).
  { intros m o Hm Ho. destruct (name_ok m Hm) as (A1 & A2 & A3). repeat split; cbn [fst snd]; assumption. }
  repeat (apply Forall_app; split).
  - destruct (nonempty _); first [apply Forall_nil | apply Forall_cons; [apply K; [reflexivity|exact P]|apply Forall_nil]].
  - destruct (nonempty _); first [apply Forall_nil | apply Forall_cons; [apply K; [reflexivity|exact D]|apply Forall_nil]].
  - destruct (ck_expires c); first [apply Forall_nil | apply Forall_cons; [apply K; [reflexivity|exact E]|apply Forall_nil]].
  - destruct (negb _); first [apply Forall_nil | apply Forall_cons; [apply K; [exact Hn|apply itoa_plain; lia]|apply Forall_nil]].
  - destruct (nonempty _); first [apply Forall_nil | apply Forall_cons; [apply K; [reflexivity|exact S]|apply Forall_nil]].
  - destruct (ck_secure c); first [apply Forall_nil | apply Forall_cons; [apply K; [reflexivity|exact I]|apply Forall_nil]].
  - destruct (ck_httponly c); first [apply Forall_nil | apply Forall_cons; [apply K; [reflexivity|exact I]|apply Forall_nil]].
Qed.
Theorem set_cookie_read : forall n c, name_okb n = true -> PlainCookie c ->
  read_set_cookie (set_cookie_text n c) = Some (ck_name c, ck_value c, attributes n c).
Proof.
  intros n c Hn Hc. pose proof (attributes_good n c Hn Hc) as Ha. destruct Hc as ((N1 & N2) & Ne & (V1 & V2) & _).
  unfold read_set_cookie, set_cookie_text. rewrite split_join.
  - change (ck_name c ++ B "=" ++ ck_value c) with (ck_name c ++ x3d :: ck_value c). rewrite before_byte_app by exact Ne.
    rewrite N2, V2. do 2 f_equal. rewrite !map_map. rewrite <- (map_id (attributes n c)) at 2. apply map_ext_in.
    intros a Hi. apply read_attr_text. rewrite Forall_forall in Ha. apply Ha. exact Hi.
  - intros Hi. apply in_app_or in Hi. destruct Hi as [Hi|[Hi|Hi]]; [exact (N1 Hi)|discriminate Hi|exact (V1 Hi)].
  - apply Forall_forall. intros t Ht. apply in_map_iff in Ht. destruct Ht as (a & <- & Hi). rewrite Forall_forall in Ha.
    destruct (Ha a Hi) as (A1 & _ & _ & A2). unfold attribute_text. destruct (snd a) as [v|]; [|exact A1].
    intros Hx. apply in_app_or in Hx. destruct Hx as [Hx|[Hx|Hx]]; [exact (A1 Hx)|discriminate Hx|exact (proj1 A2 Hx)].
Qed.
(* ---- C28 ---- *)
Lemma phrases_ok : forallb (fun c => existsb (fun e => (fst e =? c)%N && beqb (snd e) (status_text c)) standard_phrases) known_codes = true.
Proof. vm_compute. reflexivity. Qed.
Lemma phrases_known : forallb (fun e => existsb (fun c => (fst e =? c)%N) known_codes) standard_phrases = true.
Proof. vm_compute. reflexivity. Qed.
Lemma standard_reason : forall c, (exists ph, In (c, ph) standard_phrases) -> In (c, status_text c) standard_phrases.
Proof.
  intros c (ph & Hi). pose proof phrases_known as K. rewrite forallb_forall in K. specialize (K _ Hi).
  apply existsb_exists in K. destruct K as (c' & Hc & E). apply N.eqb_eq in E. cbn in E. subst c'.
  pose proof phrases_ok as K. rewrite forallb_forall in K. specialize (K c Hc). apply existsb_exists in K.
  destruct K as ((c' & t) & Hi2 & E). cbn in E. apply andb_true_iff in E. destruct E as [E1 E2]. apply N.eqb_eq in E1. apply beqb_eq in E2. subst. exact Hi2.
Qed.
Theorem line_written : forall p r f s c res s' c' f', p <> PUnknown -> write_ok c ->
  write_response p r f s c = (res, s', c', f') ->
  exists out more, cl_out c' = cl_out c ++ (s_buff s ++ out) :: more /\ exists rest, out = version_of p ++ [SP] ++ itoa_N (f_code f) ++ [SP] ++ sent_reason f ++ CRLF ++ rest.
Proof.
  intros p r f s c res s' c' f' Hp Hw H. destruct (f_att f) as [a|] eqn:Ha.
  - unfold write_response in H. rewrite Ha in H. unfold send_attachment in H. cbv zeta in H.
    set (f1 := if (0 <? at_size a)%Z then f else set_te (B "chunked") f) in *.
    set (s0 := render_response_line f (render_protocol p s)) in *.
    set (s1 := put CRLF _) in *.
    assert (E : exists t, s_buff s1 = s_buff s0 ++ t).
    { subst s1. rewrite render_headers_text. destruct (0 <? at_size a)%Z; unfold render_content_length, put, set_defaults; cbn [s_buff];
        eexists; rewrite <- ?app_assoc; reflexivity. }
    destruct E as (t & E). rewrite E in H.
    assert (E0 : s_buff s0 = s_buff s ++ version_of p ++ [SP] ++ itoa_N (f_code f) ++ [SP] ++ sent_reason f ++ CRLF).
    { subst s0. rewrite render_line_text. unfold render_protocol. rewrite !put_buff, (proto_version p Hp). rewrite <- ?app_assoc. reflexivity. }
    rewrite E0 in H.
    set (out := version_of p ++ [SP] ++ itoa_N (f_code f) ++ [SP] ++ sent_reason f ++ CRLF ++ t).
    assert (Eout : (s_buff s ++ version_of p ++ [SP] ++ itoa_N (f_code f) ++ [SP] ++ sent_reason f ++ CRLF) ++ t = s_buff s ++ out)
      by (subst out; rewrite <- ?app_assoc; reflexivity).
    rewrite Eout in H. destruct (client_write_ok c (s_buff s ++ out) Hw) as (c1 & Ec & Eo & _). rewrite Ec in H. cbn [negb] in H.
    assert (G : forall w m c2 ev2 (c1 : client) mem, (if (0 <? at_size a)%Z then write_plain (at_events a) mem c1 else write_chunked (at_events a) mem c1) = (w, m, c2, ev2) ->
                exists more, cl_out c2 = cl_out c1 ++ more).
    { assert (Wo : forall c d, exists more, cl_out (snd (client_write c d)) = cl_out c ++ more).
      { intros c0 d. unfold client_write. destruct (cl_wres c0) as [|[k|] w]; eexists; reflexivity. }
      intros w m c2 ev2 c0 mem. destruct (0 <? at_size a)%Z.
      - revert w m c2 ev2 c0 mem. generalize (at_events a) as ev. induction ev as [|[d e] ev IH]; intros w m c2 ev2 c0 mem W; cbn [write_plain] in W.
        + injection W as <- <- <- <-. exists []. symmetry. apply app_nil_r.
        + destruct e as [[|]|]; try (injection W as <- <- <- <-; exists []; symmetry; apply app_nil_r).
          destruct (_ <? _)%nat; [injection W as <- <- <- <-; exists []; symmetry; apply app_nil_r|].
          destruct (Wo c0 (firstn (List.length d) (overwrite mem 0 d))) as (m1 & Em1).
          destruct (client_write c0 _) as [ok c3] eqn:Ecw. cbn [snd] in Em1. destruct ok.
          * apply IH in W. destruct W as (m2 & Em2). exists (m1 ++ m2). rewrite Em2, Em1, app_assoc. reflexivity.
          * injection W as <- <- <- <-. exists m1. exact Em1.
      - revert w m c2 ev2 c0 mem. generalize (at_events a) as ev. induction ev as [|[d e] ev IH]; intros w m c2 ev2 c0 mem W; cbn [write_chunked] in W.
        + injection W as <- <- <- <-. exists []. symmetry. apply app_nil_r.
        + assert (Aft : forall mm cc, match e with None => write_chunked ev mm cc
                   | Some REof => let '(ok, c) := client_write cc chunked_finalizer in ((if ok then WOk else WNet), mm, c, ev)
                   | Some RFail => (WClose, mm, cc, ev) end = (w, m, c2, ev2) -> exists more, cl_out c2 = cl_out cc ++ more).
          { intros mm cc X. destruct e as [[|]|].
            - destruct (Wo cc chunked_finalizer) as (m1 & Em1). destruct (client_write cc _) as [ok c3]. injection X as <- <- <- <-. exists m1. exact Em1.
            - injection X as <- <- <- <-. exists []. symmetry. apply app_nil_r.
            - apply IH in X. exact X. }
          destruct (0 <? List.length d)%nat; [|apply Aft in W; exact W].
          destruct (_ <? _)%nat; [injection W as <- <- <- <-; exists []; symmetry; apply app_nil_r|].
          destruct (_ <? _)%nat; [injection W as <- <- <- <-; exists []; symmetry; apply app_nil_r|].
          match type of W with context [client_write c0 ?x] => destruct (Wo c0 x) as (m1 & Em1); destruct (client_write c0 x) as [ok c3] end. cbn [snd] in Em1. destruct ok.
          * apply Aft in W. destruct W as (m2 & Em2). exists (m1 ++ m2). rewrite Em2, Em1, app_assoc. reflexivity.
          * injection W as <- <- <- <-. exists m1. exact Em1. }
    exists out. destruct (method_eqb (r_method r) HEAD).
    + injection H as <- <- <- <-. exists []. split; [exact Eo|]. exists t. reflexivity.
    + match type of H with context [if (0 <? at_size a)%Z then write_plain ?x ?m ?y else write_chunked ?x ?m ?y] =>
        destruct (if (0 <? at_size a)%Z then write_plain x m y else write_chunked x m y) as [[[w m2] c2] ev2] eqn:W end. apply G in W. destruct W as (more & Em). exists more.
      destruct w; injection H as <- <- <- <-; (split; [rewrite Em, Eo, <- app_assoc; reflexivity|exists t; reflexivity]).
  - rewrite plain_write in H by exact Ha. set (out := plain_text_of _ _ _ _) in *.
    destruct (client_write_ok c (s_buff s ++ out) Hw) as (c1 & Ec & Eo & _). rewrite Ec in H. injection H as <- <- <- <-.
    exists out, []. split; [exact Eo|]. subst out. unfold plain_text_of. rewrite (proto_version p Hp). eexists. rewrite <- ?app_assoc. reflexivity.
Qed.
