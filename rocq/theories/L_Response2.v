(* Lemmas: a plain response as text, and reading it back. *)
From Verif Require Import M_Base M_Status M_Method M_Proto M_Client M_Request M_Response M_Serializer
  S_KeyValue S_Response L_Base L_KeyValue L_Tables L_Response.

Definition shown_body (r : request) (f : fields) : bytes := if method_eqb (r_method r) HEAD then [] else f_body f.
Definition plain_text_of (p : proto) (r : request) (f : fields) (d : list default_header) : bytes :=
  proto_string p ++ itoa_N (f_code f) ++ [SP] ++ sent_reason f ++ CRLF ++ headers_text f d ++
  concat (map field_text (cookie_fields f)) ++ field_text (B "Content-Length", itoa (len (f_body f))) ++ CRLF ++ shown_body r f.

Definition close_result (p : proto) (r : request) (ok : bool) : wres :=
  if negb (is_keep_alive p r) && proto_eqb (r_upgrade r) PUnknown then WClose else if ok then WOk else WNet.
Lemma plain_write : forall p r f s c, f_att f = None ->
  write_response p r f s c =
  (close_result p r (fst (client_write c (s_buff s ++ plain_text_of p r f (excl (names f) (s_defaults s))))),
   Ser [] (s_filebuf s) (s_filesize s) (excl (names f) (s_defaults s)),
   snd (client_write c (s_buff s ++ plain_text_of p r f (excl (names f) (s_defaults s)))), f).
Proof.
  intros p r f s c Ha. unfold write_response. rewrite Ha. cbv zeta.
  rewrite render_line_text, render_cookies_text, render_headers_text. unfold render_protocol, render_content_length.
  set (d := excl (names f) (s_defaults (put (itoa_N (f_code f) ++ [SP] ++ sent_reason f ++ CRLF) (put (proto_string p) s)))).
  assert (Ed : d = excl (names f) (s_defaults s)) by reflexivity. rewrite <- Ed. clearbody d. clear Ed.
  match goal with |- context [client_write c (s_buff ?x)] =>
    assert (Ex : x = set_defaults d (put (plain_text_of p r f d) s)) end.
  { destruct (method_eqb (r_method r) HEAD) eqn:Em; unfold set_defaults, put; cbn [s_buff s_filebuf s_filesize s_defaults]; f_equal;
      unfold plain_text_of, shown_body; rewrite Em; fold (cookie_fields f);
      change (field_text (B "Content-Length", itoa (len (f_body f)))) with (B "Content-Length: " ++ itoa (len (f_body f)) ++ CRLF);
      rewrite ?app_nil_r, <- ?app_assoc; reflexivity. }
  rewrite Ex. unfold set_defaults, put, ser_clear, close_result, reset_defaults. cbn [s_buff s_filebuf s_filesize s_defaults].
  destruct (client_write c _) as [ok c2]. cbn [fst snd]. reflexivity.
Qed.

Lemma proto_version : forall p, p <> PUnknown -> proto_string p = version_of p ++ [SP].
Proof. intros [| | |] H; [congruence|reflexivity|reflexivity|reflexivity]. Qed.
Lemma headers_text_fields : forall f defs past, distinct_names defs ->
  headers_text f (map (mark past) defs) =
  concat (map field_text (f_headers f ++ remaining past defs ++ [(B "Content-Type", f_ctype f)] ++ te_fields f)).
Proof.
  intros f defs past Hd. unfold headers_text. rewrite active_mark. rewrite !map_app, !concat_app.
  change (map field_text [(B "Content-Type", f_ctype f)]) with [field_text (B "Content-Type", f_ctype f)].
  cbn [concat]. rewrite app_nil_r. reflexivity.
Qed.
Lemma plain_is_response : forall p r f fbs defs past s, Served fbs defs past s -> distinct_names defs -> p <> PUnknown ->
  plain_text_of p r f (excl (names f) (s_defaults s)) =
  response_text (version_of p) (itoa_N (f_code f)) (sent_reason f) (sent_fields defs past f) (shown_body r f).
Proof.
  intros p r f fbs defs past s Hs Hd Hp. apply served_inv in Hs. rewrite (si_defaults _ _ _ _ Hs Hd), excl_mark by exact Hd.
  unfold plain_text_of, response_text. rewrite headers_text_fields by exact Hd. rewrite (proto_version p Hp).
  unfold sent_fields. fold (te_fields f) (cookie_fields f). rewrite !map_app, !concat_app.
  change (map field_text [(B "Content-Length", itoa (len (f_body f)))]) with [field_text (B "Content-Length", itoa (len (f_body f)))].
  cbn [concat]. rewrite app_nil_r, <- ?app_assoc. reflexivity.
Qed.

(* ---- reading ---- *)
Lemma cut_line_clean : forall a b, clean a -> cut_line (a ++ CRLF ++ b) = Some (a, b).
Proof.
  induction a as [|x a IH]; intros b [H1 H2]; [reflexivity|].
  cbn [app cut_line].
  assert (E1 : Byte.eqb x CR = false) by (apply beq_neq; intros ->; apply H1; left; reflexivity).
  assert (E2 : Byte.eqb x LF = false) by (apply beq_neq; intros ->; apply H2; left; reflexivity).
  rewrite E1, E2, IH; [reflexivity|]. split; intros Hi; [apply H1|apply H2]; right; exact Hi.
Qed.
Lemma cut_lines_clean : forall ls fuel rest, Forall (fun l => clean l /\ l <> []) ls -> (List.length ls < fuel)%nat ->
  cut_lines fuel (concat (map (fun l => l ++ CRLF) ls) ++ CRLF ++ rest) = Some (ls, rest).
Proof.
  induction ls as [|l ls IH]; intros fuel rest Hc Hf; (destruct fuel as [|fuel]; [inversion Hf|]).
  - reflexivity.
  - inversion Hc as [|? ? [C Ne] Hc']; subst. cbn [map concat cut_lines]. rewrite <- ?app_assoc.
    rewrite cut_line_clean by exact C. destruct l as [|x l]; [congruence|].
    rewrite IH; [reflexivity|exact Hc'|cbn in Hf; lia].
Qed.
Lemma concat_lines_len : forall ls : list bytes, (List.length ls <= List.length (concat (map (fun l => l ++ CRLF) ls)))%nat.
Proof. induction ls as [|l ls IH]; [apply le_n|]. cbn [map concat List.length]. rewrite !app_length. cbn. lia. Qed.
Lemma cut_lines_response : forall start ls rest, clean start -> start <> [] -> Forall (fun l => clean l /\ l <> []) ls ->
  let l := start ++ CRLF ++ concat (map (fun l => l ++ CRLF) ls) ++ CRLF ++ rest in
  cut_lines (S (List.length l)) l = Some (start :: ls, rest).
Proof.
  intros start ls rest C Ne Hl l.
  replace l with (concat (map (fun l => l ++ CRLF) (start :: ls)) ++ CRLF ++ rest)
    by (subst l; cbn [map concat]; rewrite <- ?app_assoc; reflexivity).
  apply cut_lines_clean; [constructor; [split; assumption|exact Hl]|].
  rewrite app_length. pose proof (concat_lines_len (start :: ls)). lia.
Qed.
Lemma before_byte_app : forall c a b, ~ In c a -> before_byte c (a ++ c :: b) = Some (a, b).
Proof.
  intros c a. induction a as [|x a IH]; intros b H; cbn [app before_byte].
  - rewrite beq_refl. reflexivity.
  - replace (Byte.eqb x c) with false by (symmetry; apply beq_neq; intros ->; apply H; left; reflexivity).
    rewrite IH; [reflexivity|]. intros Hi. apply H. right. exact Hi.
Qed.
Lemma before_byte_none : forall c a, ~ In c a -> before_byte c a = None.
Proof.
  intros c a. induction a as [|x a IH]; intros H; cbn [before_byte]; [reflexivity|].
  replace (Byte.eqb x c) with false by (symmetry; apply beq_neq; intros ->; apply H; left; reflexivity).
  rewrite IH; [reflexivity|]. intros Hi. apply H. right. exact Hi.
Qed.
Lemma trim_sp : forall v, trim (SP :: v) = trim v.
Proof. reflexivity. Qed.
Definition bare (e : entry) : bytes := fst e ++ B ": " ++ snd e.
Lemma read_field_bare : forall e, clean_name (fst e) -> read_field (bare e) = Some (trimmed e).
Proof.
  intros [n v] [[C1 C2] [Ne Nc]]. unfold read_field, bare. cbn [fst snd] in *.
  change (n ++ B ": " ++ v) with (n ++ x3a :: (SP :: v)). rewrite before_byte_app by exact Nc.
  destruct n as [|x n]; [congruence|]. rewrite trim_sp. reflexivity.
Qed.
Lemma read_fields_bare : forall es, Forall (fun e => clean_name (fst e)) es -> read_fields (map bare es) = Some (map trimmed es).
Proof.
  induction es as [|e es IH]; intros H; [reflexivity|]. inversion H as [|? ? H1 H2]; subst.
  cbn [map read_fields]. rewrite read_field_bare by exact H1. rewrite (IH H2). reflexivity.
Qed.
Lemma clean_app : forall a b, clean a -> clean b -> clean (a ++ b).
Proof. intros a b [A1 A2] [B1 B2]. split; intros H; apply in_app_or in H; tauto. Qed.
Lemma clean_nil : clean [].
Proof. split; intros []. Qed.
Definition cleanb (b : bytes) : bool := forallb (fun x => negb (Byte.eqb x CR) && negb (Byte.eqb x LF)) b.
Lemma cleanb_ok : forall b, cleanb b = true -> clean b.
Proof.
  intros b H. unfold cleanb in H. rewrite forallb_forall in H. split; intros Hi; specialize (H _ Hi); cbn in H; discriminate H.
Qed.
Lemma bare_clean : forall e, clean_field e -> clean (bare e) /\ bare e <> [].
Proof.
  intros [n v] [[C [Ne _]] Cv]. cbn [fst snd] in *. unfold bare. cbn [fst snd]. split.
  - repeat apply clean_app; try assumption. apply cleanb_ok. reflexivity.
  - destruct n; [congruence|discriminate].
Qed.
Lemma map_field_text : forall es, map field_text es = map (fun l => l ++ CRLF) (map bare es).
Proof. intros es. rewrite map_map. apply map_ext. intros [n v]. unfold field_text, bare. rewrite <- ?app_assoc. reflexivity. Qed.

(* numbers *)
Lemma dec_digit_ok : forall x, is_digit x = true -> dec_digit x = Some (digit_val x).
Proof. intros x H. unfold dec_digit, digit_val. unfold is_digit in *. rewrite H. reflexivity. Qed.
Lemma dec_number_digits : forall l, l <> [] -> Forall (fun x => is_digit x = true) l -> dec_number l = Some (digits_val 10 l).
Proof.
  intros l Ne H. unfold dec_number. destruct l as [|x0 l0]; [congruence|]. set (l := x0 :: l0) in *. clearbody l. clear Ne x0 l0.
  unfold digits_val. generalize 0%N as a. induction H as [|x l Hx H IH]; intros a; [reflexivity|].
  cbn [fold_left]. rewrite dec_digit_ok by exact Hx. rewrite IH. f_equal. f_equal. lia.
Qed.
Lemma digits_aux_digit : forall fuel n acc, Forall (fun x => is_digit x = true) acc ->
  Forall (fun x => is_digit x = true) (digits_aux fuel 10 n acc).
Proof.
  induction fuel as [|fuel IH]; intros n acc H; [exact H|]. cbn [digits_aux].
  assert (K : Forall (fun x => is_digit x = true) (digit (n mod 10) :: acc)).
  { constructor; [apply digit_is_digit; apply N.mod_lt; lia|exact H]. }
  destruct (n <? 10)%N; [exact K|]. apply IH. exact K.
Qed.
Lemma digits_aux_nonnil : forall fuel base n acc, acc <> [] \/ (0 < fuel)%nat -> digits_aux fuel base n acc <> [].
Proof.
  induction fuel as [|fuel IH]; intros base n acc H; cbn [digits_aux]; [destruct H as [H|H]; [exact H|lia]|].
  destruct (n <? base)%N; [discriminate|]. apply IH. left. discriminate.
Qed.
Lemma itoa_N_dec : forall n, dec_number (itoa_N n) = Some n.
Proof.
  intros n. unfold itoa_N. rewrite dec_number_digits.
  - rewrite digits_round by lia. reflexivity.
  - apply digits_aux_nonnil. right. lia.
  - apply digits_aux_digit. constructor.
Qed.
Lemma itoa_nat : forall n : nat, itoa (Z.of_nat n) = itoa_N (N.of_nat n).
Proof.
  intros n. unfold itoa. replace (Z.of_nat n <? 0)%Z with false by (symmetry; apply Z.ltb_ge; lia).
  f_equal. lia.
Qed.
Lemma itoa_clean : forall z, clean (itoa z) /\ itoa z <> [].
Proof.
  assert (K : forall n, clean (itoa_N n)).
  { intros n. assert (H : Forall (fun x => is_digit x = true) (itoa_N n)) by (apply digits_aux_digit; constructor).
    rewrite Forall_forall in H. split; intros Hi; specialize (H _ Hi); vm_compute in H; discriminate H. }
  intros z. unfold itoa. destruct (z <? 0)%Z.
  - split; [|discriminate]. change (x2d :: itoa_N (Z.to_N (- z))) with ([x2d] ++ itoa_N (Z.to_N (- z))).
    apply clean_app; [apply cleanb_ok; reflexivity|apply K].
  - split; [apply K|]. apply digits_aux_nonnil. right. lia.
Qed.
(* digits carry no white space around *)
Lemma ltrim_digit : forall l, Forall (fun x => is_digit x = true) l -> ltrim l = l.
Proof. intros l H. destruct H as [|x l Hx _]; [reflexivity|]. cbn [ltrim].
  replace (is_ows x) with false; [reflexivity|]. destruct x; try reflexivity; discriminate Hx. Qed.
Lemma trim_itoa : forall n, trim (itoa_N n) = itoa_N n.
Proof.
  intros n. assert (H : Forall (fun x => is_digit x = true) (itoa_N n)) by (apply digits_aux_digit; constructor).
  unfold trim. rewrite (ltrim_digit _ H). rewrite ltrim_digit; [apply rev_involutive|]. apply Forall_rev. exact H.
Qed.

(* the status line *)
Definition code_okb (c : N) : bool :=
  match itoa_N c with
  | [a; b; d] => match dec_number [a; b; d] with Some n => (n =? c)%N | None => false end
  | _ => false
  end.
Lemma codes_ok : forallb code_okb (map N.of_nat (seq 100 900)) = true.
Proof. vm_compute. reflexivity. Qed.
Lemma code_three : forall c, (100 <= c <= 999)%N -> exists a b d, itoa_N c = [a; b; d] /\ dec_number [a; b; d] = Some c.
Proof.
  intros c H. pose proof codes_ok as K. rewrite forallb_forall in K. specialize (K c).
  assert (Hi : In c (map N.of_nat (seq 100 900))).
  { apply in_map_iff. exists (N.to_nat c). split; [lia|]. apply in_seq. lia. }
  specialize (K Hi). unfold code_okb in K. destruct (itoa_N c) as [|a [|b [|d [|? ?]]]]; try discriminate K.
  exists a, b, d. split; [reflexivity|]. destruct (dec_number [a; b; d]) as [n|]; [|discriminate K].
  apply N.eqb_eq in K. congruence.
Qed.
Lemma read_start_text : forall v c reason, ~ In SP v -> (100 <= c <= 999)%N ->
  read_start (v ++ [SP] ++ itoa_N c ++ [SP] ++ reason) = Some (v, c, reason).
Proof.
  intros v c reason Hv Hc. unfold read_start. cbn [app]. rewrite before_byte_app by exact Hv.
  destruct (code_three c Hc) as (a & b & d & E & D). rewrite E. cbn [app]. rewrite beq_refl, D. reflexivity.
Qed.
Lemma version_clean : forall p, ~ In SP (version_of p) /\ clean (version_of p).
Proof.
  intros p. split; [|apply cleanb_ok; destruct p; reflexivity].
  destruct p; cbn; intros H; repeat (destruct H as [H|H]; [discriminate H|]); exact H.
Qed.
Lemma status_text_clean : forall c, clean (status_text c).
Proof.
  intros c. apply cleanb_ok. destruct (in_dec N.eq_dec c known_codes) as [Hi|Hi].
  - assert (K : forallb (fun c => cleanb (status_text c)) known_codes = true) by (vm_compute; reflexivity).
    rewrite forallb_forall in K. apply K. exact Hi.
  - destruct (line_unknown c Hi) as [_ E]. rewrite E. reflexivity.
Qed.
Lemma reason_clean : forall f, clean (sent_reason f).
Proof. intros f. unfold sent_reason. destruct (_ && _); [apply cleanb_ok; reflexivity|apply status_text_clean]. Qed.
