(* Every well-formed head is accepted by the parser and yields the request it means. *)
From Verif Require Import M_Base L_Base M_Status M_Method M_Proto M_Uri M_KeyValue M_Query M_Request
  M_Parser S_Head S_Parser L_Uri L_Parser.

Local Arguments cut : simpl never.
Local Arguments cut_last : simpl never.

(* ---- names ---- *)
Definition name_byte (c : byte) : bool :=
  ((97 <=? bN c)%N && (bN c <=? 122)%N) || Byte.eqb c x2d.

Lemma or20_lower : forall c, c <> CR ->
  (name_byte (or20 c) = true -> or20 c = lower c) /\ (name_byte (lower c) = true -> or20 c = lower c).
Proof.
  intros c H. destruct c; try (exfalso; apply H; reflexivity);
    (split; intro E; [try reflexivity; vm_compute in E; discriminate
                     |try reflexivity; vm_compute in E; discriminate]).
Qed.

Lemma lower_name : forall c, name_byte c = true -> lower c = c.
Proof. intros c. destruct c; intro E; try reflexivity; vm_compute in E; discriminate. Qed.

Lemma key_is_fold : forall name k, forallb name_byte name = true -> ~ In CR k ->
  key_is k name = equal_fold k name.
Proof.
  unfold key_is, equal_fold.
  induction name as [|n name IH]; intros k Hn Hk.
  - destruct k; reflexivity.
  - destruct k as [|c k]; [reflexivity|]. simpl in *.
    apply andb_true_iff in Hn. destruct Hn as [Hn1 Hn2].
    rewrite IH by (try assumption; intro; apply Hk; right; assumption).
    f_equal. rewrite (lower_name n Hn1).
    assert (Hc : c <> CR) by (intro; apply Hk; left; assumption).
    destruct (or20_lower c Hc) as [H1 H2].
    destruct (Byte.eqb (or20 c) n) eqn:E1, (Byte.eqb (lower c) n) eqn:E2; try reflexivity.
    + apply beq_eq in E1. subst n. rewrite H1 in E2 by exact Hn1. rewrite beq_refl in E2. discriminate.
    + apply beq_eq in E2. subst n. rewrite H2 in E1 by exact Hn1. rewrite beq_refl in E1. discriminate.
Qed.

(* ---- Content-Length ---- *)
Lemma digit_range : forall c, is_digit c = true -> (0 <= bZ c - 48 <= 9)%Z.
Proof.
  intros c H. unfold is_digit in H. apply andb_true_iff in H. destruct H as [H1 H2].
  apply N.leb_le in H1. apply N.leb_le in H2. unfold bZ, bN in *. lia.
Qed.

Lemma wrap_i64_id : forall z, (0 <= z < 9223372036854775808)%Z -> wrap_i64 z = z.
Proof.
  intros z H. unfold wrap_i64, two63, two64. rewrite Z.mod_small by lia. lia.
Qed.

Definition dec_step (a : Z) (d : byte) : Z := (a * 10 + (bZ d - 48))%Z.

Lemma dec_ge : forall ds n, (0 <= n)%Z -> Forall (fun c => is_digit c = true) ds ->
  (n <= fold_left dec_step ds n)%Z.
Proof.
  induction ds as [|d ds IH]; intros n Hn H; simpl; [lia|].
  inversion H as [|d' ds' Hd Hds]. subst. pose proof (digit_range d Hd) as Hr.
  assert (Hs : (0 <= dec_step n d)%Z) by (unfold dec_step; lia).
  specialize (IH (dec_step n d) Hs Hds). unfold dec_step in *. lia.
Qed.

Lemma digit_not_sp : forall c, is_digit c = true -> Byte.eqb c SP = false.
Proof. intros c H. apply beq_neq. intros ->. discriminate. Qed.

Lemma clen_loop_dec : forall ds n, (0 <= n)%Z -> Forall (fun c => is_digit c = true) ds ->
  (fold_left dec_step ds n < 9223372036854775808)%Z ->
  fst (clen_loop n ds) = fold_left dec_step ds n.
Proof.
  induction ds as [|d ds IH]; intros n Hn H Hl; [reflexivity|].
  inversion H as [|d' ds' Hd Hds]. subst. simpl in *.
  rewrite (digit_not_sp d Hd), Hd.
  pose proof (digit_range d Hd) as Hr.
  assert (Hs : (0 <= dec_step n d)%Z) by (unfold dec_step; lia).
  pose proof (dec_ge ds (dec_step n d) Hs Hds) as Hge.
  change (n * 10 + (bZ d - 48))%Z with (dec_step n d).
  rewrite wrap_i64_id by lia. apply IH; assumption.
Qed.

Lemma clen_loop_spaces : forall k n ds, clen_loop n (repeat SP k ++ ds) = clen_loop n ds.
Proof. induction k as [|k IH]; intros n ds; [reflexivity|]. simpl. apply IH. Qed.

Lemma clen_value : forall k ds, Forall (fun c => is_digit c = true) ds ->
  (dec_value ds < 9223372036854775808)%Z ->
  fst (clen_loop 0 (repeat SP k ++ ds)) = dec_value ds.
Proof. intros k ds H Hl. rewrite clen_loop_spaces. apply clen_loop_dec; [lia|exact H|exact Hl]. Qed.

(* ---- values ---- *)
Lemma trim_spaces : forall k v, hd CR v <> SP -> trim_prefix_spaces (repeat SP k ++ v) = v.
Proof.
  induction k as [|k IH]; intros v H; simpl.
  - destruct v as [|c v]; [reflexivity|]. simpl in *.
    assert (E : Byte.eqb c SP = false) by (apply beq_neq; exact H). rewrite E. reflexivity.
  - apply IH. exact H.
Qed.

Lemma raw_value_ok : forall l, hd CR (hl_value l) <> SP ->
  (hl_crlf l = false -> hl_value l <> [] /\ last_byte (hl_value l) <> Some CR) ->
  exists c, last_byte (trim_prefix_spaces (raw_value l)) = Some c /\
    (if Byte.eqb c CR then drop_last (trim_prefix_spaces (raw_value l))
     else trim_prefix_spaces (raw_value l)) = hl_value l.
Proof.
  intros l Hh Hl. unfold raw_value. destruct (hl_crlf l) eqn:E.
  - rewrite trim_spaces.
    + exists CR. rewrite last_byte_snoc, beq_refl, drop_last_snoc. split; reflexivity.
    + destruct (hl_value l); simpl in *; [discriminate|exact Hh].
  - rewrite app_nil_r, trim_spaces by exact Hh. destruct (Hl eq_refl) as [Hn Hc].
    destruct (last_byte (hl_value l)) as [c|] eqn:El.
    + exists c. split; [reflexivity|].
      assert (Ec : Byte.eqb c CR = false) by (apply beq_neq; congruence). rewrite Ec. reflexivity.
    + apply last_byte_none in El. contradiction.
Qed.

Section Lines.
Variable cfg : hcfg.
Variables umax kmax vmax : Z.

Definition apply_line (r : request) (l : hline) : request :=
  if is_content_length l then set_content_length (dec_value (hl_value l)) r
  else apply_header cfg (hl_key l) (hl_value l) r.

Lemma is_cl_key : forall l, ~ In CR (hl_key l) -> key_is (hl_key l) (B "content-length") = is_content_length l.
Proof. intros l H. apply key_is_fold; [reflexivity|exact H]. Qed.

Lemma lines_HK : forall ls n ku vu (seen : bool) r endcrlf,
  Forall wf_line ls ->
  (List.length (filter is_content_length ls) <= if seen then 0 else 1)%nat ->
  (n + Z.of_nat (List.length ls) <= c_max_headers cfg)%Z ->
  (ku + keys_size ls <= kmax)%Z -> (vu + values_size ls <= vmax)%Z ->
  Forall (fun l => is_content_length l = false -> (len (raw_value l) <= c_max_value cfg)%Z) ls ->
  HK cfg kmax vmax (fold_left apply_line ls r) n ku vu seen r
     (concat (map render_line ls) ++ eol endcrlf).
Proof.
  induction ls as [|l ls IH]; intros n ku vu seen r endcrlf Hwf Hcl Hn Hku Hvu Hmv.
  - simpl. apply HK_end.
  - inversion Hwf as [|l' ls' Hl Hls]. subst. inversion Hmv as [|l' ls' Hm Hms]. subst.
    destruct Hl as (Hk1 & Hk2 & Hk3 & Hv).
    cbn [map concat fold_left]. rewrite <- app_assoc.
    assert (Hsize : (0 <= keys_size ls /\ 0 <= values_size ls)%Z).
    { clear. induction ls as [|l ls [IH1 IH2]]; simpl; [lia|].
      pose proof (len_nonneg (hl_key l)). pose proof (len_nonneg (raw_value l)).
      destruct (is_content_length l); lia. }
    cbn [keys_size values_size fold_right] in Hku, Hvu.
    fold (keys_size ls) in Hku. fold (values_size ls) in Hvu.
    cbn [List.length] in Hn.
    unfold apply_line at 2.
    destruct (is_content_length l) eqn:Ecl.
    + cbn [filter] in Hcl. rewrite Ecl in Hcl. destruct seen; cbn [List.length] in Hcl; [lia|].
      destruct Hv as (Hne & Hd & Hmax).
      unfold render_line. rewrite <- app_assoc. cbn [app]. rewrite <- !app_assoc.
      rewrite app_assoc with (l := repeat SP (hl_spaces l)).
      apply HK_cl.
      * repeat split; assumption.
      * rewrite is_cl_key by exact Hk2. exact Ecl.
      * lia.
      * lia.
      * apply Forall_app. split.
        -- apply Forall_forall. intros c Hc. apply repeat_spec in Hc. left. exact Hc.
        -- eapply Forall_impl; [|exact Hd]. intros c Hc. right. exact Hc.
      * rewrite clen_value by assumption.
        apply IH; try assumption; try lia.
    + destruct Hv as (Hlf & Hh & Hl).
      destruct (raw_value_ok l Hh Hl) as (c & Hlast & Hval).
      assert (Hr : render_line l = hl_key l ++ x3a :: raw_value l ++ [LF]).
      { unfold render_line, raw_value. rewrite <- !app_assoc. destruct (hl_crlf l); reflexivity. }
      rewrite Hr. rewrite <- app_assoc. cbn [app]. rewrite <- app_assoc. cbn [app].
      apply HK_val with (c := c).
      * repeat split; assumption.
      * rewrite is_cl_key by exact Hk2. exact Ecl.
      * lia.
      * lia.
      * unfold raw_value. intro Hi. rewrite !in_app_iff in Hi. destruct Hi as [Hi|[Hi|Hi]].
        -- apply repeat_spec in Hi. discriminate.
        -- contradiction.
        -- destruct (hl_crlf l); simpl in Hi; [destruct Hi as [Hi|[]]; discriminate|contradiction].
      * lia.
      * apply Hm. reflexivity.
      * exact Hlast.
      * rewrite Hval. apply IH; try assumption; try lia.
        cbn [filter] in Hcl. rewrite Ecl in Hcl. exact Hcl.
Qed.
End Lines.

(* ---- request line ---- *)
Definition line_effect (h : head) (r : request) : request :=
  set_proto (h_proto h)
    (set_path (h_decoded h)
       (match h_query h with Some q => set_query (query_set (r_query r) q) r | None => r end)).

Definition line_text (h : head) : bytes :=
  target h ++ SP :: proto_token (h_proto h) ++ (if h_crlf h then [CR] else []).

Lemma proto_token_from : forall p, p <> PUnknown -> proto_from_bytes (proto_token p) = p.
Proof. intros p H. destruct p; try reflexivity; contradiction. Qed.

Lemma line_ok : forall h, wf_head h -> LineOK (line_text h) (line_effect h).
Proof.
  intros h (Hm & Hp & Hpath & Hq & Hlf & Hdec & Hquery & _) p. unfold request_line, line_text.
  rewrite cut_last_app.
  2:{ intro Hi. apply in_app_iff in Hi. destruct Hi as [Hi|Hi].
      - destruct (h_proto h); vm_compute in Hi; intuition discriminate.
      - destruct (h_crlf h); simpl in Hi; intuition discriminate. }
  assert (exists c, last_byte (proto_token (h_proto h) ++ (if h_crlf h then [CR] else [])) = Some c /\
     (if Byte.eqb c CR then drop_last (proto_token (h_proto h) ++ (if h_crlf h then [CR] else []))
      else proto_token (h_proto h) ++ (if h_crlf h then [CR] else [])) = proto_token (h_proto h))
    as (c & -> & ->).
  { destruct (h_proto h); [contradiction| | |]; destruct (h_crlf h);
      eexists; (split; [reflexivity|reflexivity]). }
  apply uri_decode_spec in Hdec.
  unfold target, line_effect. destruct (h_query h) as [q|].
  - rewrite cut_app by exact Hq. destruct (h_path h) as [|x y] eqn:Ep; [contradiction|].
    rewrite Hdec, proto_token_from by exact Hp. destruct (h_proto h); try reflexivity; contradiction.
  - rewrite app_nil_r. destruct (cut (h_path h) x3f) as [[a b]|] eqn:Ec.
    { apply cut_some in Ec. destruct Ec as [Ec _]. exfalso. apply Hq. rewrite Ec.
      apply in_or_app. right. left. reflexivity. }
    destruct (h_path h) as [|x y] eqn:Ep; [contradiction|].
    rewrite Hdec, proto_token_from by exact Hp. destruct (h_proto h); try reflexivity; contradiction.
Qed.

Lemma line_nolf : forall h, wf_head h -> ~ In LF (line_text h).
Proof.
  intros h (Hm & Hp & Hpath & Hq & Hlf & Hdec & Hquery & _) Hi. unfold line_text, target in Hi.
  rewrite !in_app_iff in Hi. destruct Hi as [[Hi|Hi]|Hi].
  - contradiction.
  - destruct (h_query h) as [q|]; [|contradiction]. destruct Hi as [Hi|Hi]; [discriminate|contradiction].
  - destruct Hi as [Hi|Hi]; [discriminate|]. rewrite in_app_iff in Hi. destruct Hi as [Hi|Hi].
    + destruct (h_proto h); vm_compute in Hi; intuition discriminate.
    + destruct (h_crlf h); simpl in Hi; intuition discriminate.
Qed.

Definition head_result (cfg : hcfg) (r0 : request) (h : head) : request :=
  fold_left (apply_line cfg) (h_lines h) (line_effect h (set_method (h_method h) r0)).

Lemma head_expect : forall cfg umax kmax vmax p h,
  Ready umax kmax vmax p -> wf_head h -> fits (cfg_limits cfg umax kmax vmax) h ->
  Expect cfg umax kmax vmax (head_result cfg (p_req p) h) (p_state p) p (render_head h).
Proof.
  intros cfg umax kmax vmax p h (Hst & Hs & Hk & Hv & Hn & Hc) Hwf Hfit.
  pose proof Hwf as (Hm & Hp & Hpath & Hq & Hlf & Hdec & Hquery & Hlines & Hcl).
  destruct Hfit as (F1 & F2 & F3 & F4 & F5 & F6). simpl in *.
  rewrite Hst.
  assert (Hr : render_head h = method_token (h_method h) ++ SP :: line_text h ++
                 LF :: concat (map render_line (h_lines h)) ++ eol (h_end_crlf h)).
  { unfold render_head, line_text. cbn [app]. rewrite <- !app_assoc. cbn [app].
    rewrite <- !app_assoc. destruct (h_crlf h); reflexivity. }
  rewrite Hr. apply X_method with (m1 := []) (m := h_method h) (f := line_effect h).
  - exact Hst.
  - exact Hs.
  - reflexivity.
  - exact Hm.
  - apply line_ok. exact Hwf.
  - apply line_nolf. exact Hwf.
  - unfold line_text. rewrite !len_app, len_cons, len_app.
    destruct (h_crlf h); [change (len [CR]) with 1%Z|change (len []) with 0%Z]; lia.
  - unfold HInv. rewrite Hs. repeat split.
    + exact Hn.
    + exists []. split; [exact Hk|reflexivity].
    + exists []. split; [exact Hv|reflexivity].
    + intros _. exact Hc.
  - unfold head_result. apply lines_HK; try assumption; lia.
Qed.

(* ---- the meaning of the result ---- *)
Lemma split_on_cut : forall c l, split_on c l =
  match cut l c with Some (a, b) => a :: split_on c b | None => [l] end.
Proof.
  induction l as [|x l IH]; [reflexivity|].
  cbn [split_on]. unfold cut. fold cut. destruct (Byte.eqb x c); [reflexivity|].
  rewrite IH. destruct (cut l c) as [[a b]|]; reflexivity.
Qed.

Lemma split_on_nonempty : forall c l, split_on c l <> [].
Proof.
  intros c l. rewrite split_on_cut. destruct (cut l c) as [[a b]|]; discriminate.
Qed.

Lemma cut_shorter : forall l c a b, cut l c = Some (a, b) -> (List.length b < List.length l)%nat.
Proof.
  intros l c a b H. apply cut_some in H. destruct H as [-> _]. rewrite app_length. simpl. lia.
Qed.

Lemma parse_encoding_spec : forall fuel v max buff ch, (List.length v <= fuel)%nat ->
  (Z.of_nat (List.length buff + List.length (list_elements v)) <= max)%Z ->
  parse_encoding fuel v max buff ch = (buff ++ list_elements v, mentions_chunked v || ch).
Proof.
  induction fuel as [|f IH]; intros v max buff ch Hf Hmax.
  - destruct v; [|simpl in Hf; lia]. simpl. rewrite app_nil_r. reflexivity.
  - destruct v as [|x v].
    + simpl. rewrite app_nil_r. reflexivity.
    + cbn [parse_encoding]. unfold mentions_chunked, list_elements in *.
      rewrite split_on_cut in *.
      destruct (cut (x :: v) x2c) as [[a b]|] eqn:Ec.
      * apply cut_shorter in Ec. cbn [map filter] in *.
        destruct (trim_space a) as [|y t] eqn:Et.
        -- cbn [nonempty] in *. apply IH; [lia|exact Hmax].
        -- cbn [nonempty List.length] in Hmax.
           destruct (Z.gtb_spec (Z.of_nat (List.length buff) + 1) max) as [Hgt|_]; [lia|].
           rewrite IH.
           ++ cbn [nonempty existsb]. rewrite <- app_assoc. f_equal.
              destruct (equal_fold (y :: t) (B "chunked")).
              ** rewrite orb_true_r. reflexivity.
              ** reflexivity.
           ++ lia.
           ++ rewrite app_length. cbn [List.length]. lia.
      * cbn [map filter] in *.
        destruct (trim_space (x :: v)) as [|y t] eqn:Et.
        -- cbn [nonempty existsb]. rewrite app_nil_r. destruct f; reflexivity.
        -- cbn [nonempty List.length] in Hmax.
           destruct (Z.gtb_spec (Z.of_nat (List.length buff) + 1) max) as [Hgt|_]; [lia|].
           cbn [nonempty existsb]. rewrite orb_false_r.
           destruct f; (destruct (equal_fold (y :: t) (B "chunked")); reflexivity).
Qed.

Lemma parse_encoding_over : forall fuel v max buff ch, (List.length v <= fuel)%nat -> list_elements v <> [] ->
  (max < Z.of_nat (List.length buff + List.length (list_elements v)))%Z ->
  parse_encoding fuel v max buff ch = ([], false).
Proof.
  induction fuel as [|f IH]; intros v max buff ch Hf Hne Hmax.
  - destruct v; [|simpl in Hf; lia]. exfalso. apply Hne. reflexivity.
  - destruct v as [|x v]; [exfalso; apply Hne; reflexivity|].
    cbn [parse_encoding]. unfold list_elements in *.
    rewrite split_on_cut in *.
    destruct (cut (x :: v) x2c) as [[a b]|] eqn:Ec.
    + apply cut_shorter in Ec. cbn [map filter] in *.
      destruct (trim_space a) as [|y t] eqn:Et.
      * cbn [nonempty] in *. apply IH; [lia|exact Hne|exact Hmax].
      * cbn [nonempty List.length] in Hmax.
        destruct (Z.gtb_spec (Z.of_nat (List.length buff) + 1) max) as [Hgt|Hle]; [reflexivity|].
        apply IH; [lia| |rewrite app_length; cbn [List.length]; lia].
        intros E. rewrite E in Hmax. cbn [List.length] in Hmax. lia.
    + cbn [map filter] in *.
      destruct (trim_space (x :: v)) as [|y t] eqn:Et; [exfalso; apply Hne; reflexivity|].
      cbn [nonempty List.length] in Hmax.
      destruct (Z.gtb_spec (Z.of_nat (List.length buff) + 1) max) as [Hgt|Hle]; [reflexivity|lia].
Qed.

Lemma parse_encoding_string_spec : forall v max,
  (Z.of_nat (List.length (list_elements v)) <= max)%Z ->
  parse_encoding_string v max = (list_elements v, mentions_chunked v).
Proof.
  intros v max H. unfold parse_encoding_string.
  rewrite parse_encoding_spec; [rewrite orb_false_r; reflexivity|lia|exact H].
Qed.

Lemma parse_encoding_string_any : forall v max, parse_encoding_string v max = (capped max v, capped_chunked max v).
Proof.
  intros v max. unfold capped_chunked, capped. destruct (Z.leb_spec (Z.of_nat (List.length (list_elements v))) max) as [H|H].
  - apply parse_encoding_string_spec. exact H.
  - unfold parse_encoding_string. destruct (list_elements v) as [|e l] eqn:E.
    + unfold parse_encoding_string. destruct v as [|x v]; [reflexivity|].
      assert (G : forall fuel w, list_elements w = [] -> parse_encoding fuel w max [] false = ([], false)).
      { clear. induction fuel as [|f IH]; intros w E; [reflexivity|]. destruct w as [|x w]; [reflexivity|]. cbn [parse_encoding]. unfold list_elements in E. rewrite split_on_cut in E.
        destruct (cut (x :: w) x2c) as [[a b]|] eqn:Ec; cbn [map filter] in E.
        - destruct (trim_space a) as [|y t]; [|discriminate E]. apply IH. exact E.
        - destruct (trim_space (x :: w)) as [|y t]; [|discriminate E]. destruct f; reflexivity. }
      apply G. exact E.
    + apply parse_encoding_over; [lia|rewrite E; discriminate|rewrite E; exact H].
Qed.

Lemma upgrade_token_spec : forall t, parse_upgrade_token t = or_default (known_upgrade t) PUnknown.
Proof.
  intro t. unfold parse_upgrade_token, known_upgrade.
  destruct (beqb t (B "http/1.0") || beqb t (B "HTTP/1.0")); [reflexivity|].
  destruct (beqb t (B "http/1.1") || beqb t (B "HTTP/1.1")); [reflexivity|].
  destruct (beqb t (B "h2c") || beqb t (B "H2C")); reflexivity.
Qed.

Lemma known_upgrade_known : forall t p, known_upgrade t = Some p -> p <> PUnknown.
Proof.
  intros t p. unfold known_upgrade.
  destruct (beqb t (B "http/1.0") || beqb t (B "HTTP/1.0")); [intros [= <-]; discriminate|].
  destruct (beqb t (B "http/1.1") || beqb t (B "HTTP/1.1")); [intros [= <-]; discriminate|].
  destruct (beqb t (B "h2c") || beqb t (B "H2C")); [intros [= <-]; discriminate|discriminate].
Qed.

Lemma choose_upgrade_spec : forall v, choose_upgrade v = offered_upgrade v.
Proof.
  intro v. unfold choose_upgrade, offered_upgrade.
  remember (List.length v) as fuel eqn:Ef. assert (Hf : (List.length v <= fuel)%nat) by lia. clear Ef.
  revert v Hf. induction fuel as [|f IH]; intros v Hf.
  - destruct v; [reflexivity|simpl in Hf; lia].
  - destruct v as [|x v]; [reflexivity|]. cbn [choose_upgrade_aux].
    rewrite split_on_cut. destruct (cut (x :: v) x2c) as [[a b]|] eqn:Ec.
    + apply cut_shorter in Ec. cbn [map first_some]. rewrite upgrade_token_spec.
      destruct (known_upgrade (trim_space a)) as [p|] eqn:Ek.
      * apply known_upgrade_known in Ek. cbn [or_default]. destruct p; try reflexivity; contradiction.
      * cbn [or_default]. apply IH. lia.
    + cbn [map first_some]. rewrite upgrade_token_spec.
      destruct (known_upgrade (trim_space (x :: v))) as [p|] eqn:Ek.
      * apply known_upgrade_known in Ek. cbn [or_default]. destruct p; try reflexivity; contradiction.
      * cbn [or_default]. destruct f; reflexivity.
Qed.

(* the effect of one header, field by field *)
Lemma named_length : forall name l, named name l = true -> List.length (hl_key l) = List.length name.
Proof. intros name l H. apply equal_fold_length in H. exact H. Qed.

Lemma apply_header_spec : forall cfg l r, ~ In CR (hl_key l) ->
  apply_header cfg (hl_key l) (hl_value l) r =
  Request (r_method r) (r_path r) (r_query r) (r_params r) (r_proto r)
    (kv_add (r_headers r) (hl_key l) (hl_value l))
    (Encoding (if named (B "transfer-encoding") l then capped (c_max_enc_tokens cfg) (hl_value l) else enc_transfer (r_encoding r))
              (if named (B "content-encoding") l then capped (c_max_enc_tokens cfg) (hl_value l) else enc_content (r_encoding r))
              (if named (B "transfer-encoding") l then capped_chunked (c_max_enc_tokens cfg) (hl_value l) else enc_chunked (r_encoding r))
              (if named (B "trailer") l then true else enc_trailer (r_encoding r)))
    (r_content_length r)
    (if named (B "content-type") l then hl_value l else r_content_type r)
    (if named (B "connection") l then hl_value l else r_connection r)
    (if named (B "upgrade") l then offered_upgrade (hl_value l) else r_upgrade r)
    (r_ctx r) (r_env r) (r_hijacked r).
Proof.
  intros cfg l r Hcr.
  pose proof (key_is_fold (B "upgrade") (hl_key l) eq_refl Hcr) as K1.
  pose proof (key_is_fold (B "trailer") (hl_key l) eq_refl Hcr) as K2.
  pose proof (key_is_fold (B "connection") (hl_key l) eq_refl Hcr) as K3.
  pose proof (key_is_fold (B "content-type") (hl_key l) eq_refl Hcr) as K4.
  pose proof (key_is_fold (B "content-encoding") (hl_key l) eq_refl Hcr) as K5.
  pose proof (key_is_fold (B "transfer-encoding") (hl_key l) eq_refl Hcr) as K6.
  fold (named (B "upgrade") l) in K1. fold (named (B "trailer") l) in K2.
  fold (named (B "connection") l) in K3. fold (named (B "content-type") l) in K4.
  fold (named (B "content-encoding") l) in K5. fold (named (B "transfer-encoding") l) in K6.
  pose proof (named_length (B "upgrade") l) as L1.
  pose proof (named_length (B "trailer") l) as L2.
  pose proof (named_length (B "connection") l) as L3.
  pose proof (named_length (B "content-type") l) as L4.
  pose proof (named_length (B "content-encoding") l) as L5.
  pose proof (named_length (B "transfer-encoding") l) as L6.
  change (List.length (B "upgrade")) with 7%nat in L1.
  change (List.length (B "trailer")) with 7%nat in L2.
  change (List.length (B "connection")) with 10%nat in L3.
  change (List.length (B "content-type")) with 12%nat in L4.
  change (List.length (B "content-encoding")) with 16%nat in L5.
  change (List.length (B "transfer-encoding")) with 17%nat in L6.
  destruct r as [rm rpa rq rpr rpt rh re rcl rct rco ru rctx renv rhj]. destruct re as [e1 e2 e3 e4].
  unfold apply_header. rewrite K1, K2, K3, K4, K5, K6. clear K1 K2 K3 K4 K5 K6.
  destruct (named (B "upgrade") l) eqn:E1.
  { rewrite (L1 eq_refl) in *.
    destruct (named (B "trailer") l) eqn:E2.
    { exfalso. unfold named in E1, E2. rewrite equal_fold_sym in E1. pose proof (equal_fold_trans _ _ _ E1 E2). discriminate. }
    destruct (named (B "connection") l); [specialize (L3 eq_refl); discriminate|].
    destruct (named (B "content-type") l); [specialize (L4 eq_refl); discriminate|].
    destruct (named (B "content-encoding") l); [specialize (L5 eq_refl); discriminate|].
    destruct (named (B "transfer-encoding") l); [specialize (L6 eq_refl); discriminate|].
    rewrite choose_upgrade_spec. reflexivity. }
  destruct (named (B "trailer") l) eqn:E2.
  { rewrite (L2 eq_refl) in *.
    destruct (named (B "connection") l); [specialize (L3 eq_refl); discriminate|].
    destruct (named (B "content-type") l); [specialize (L4 eq_refl); discriminate|].
    destruct (named (B "content-encoding") l); [specialize (L5 eq_refl); discriminate|].
    destruct (named (B "transfer-encoding") l); [specialize (L6 eq_refl); discriminate|].
    reflexivity. }
  destruct (named (B "connection") l) eqn:E3.
  { rewrite (L3 eq_refl) in *.
    destruct (named (B "content-type") l); [specialize (L4 eq_refl); discriminate|].
    destruct (named (B "content-encoding") l); [specialize (L5 eq_refl); discriminate|].
    destruct (named (B "transfer-encoding") l); [specialize (L6 eq_refl); discriminate|].
    reflexivity. }
  destruct (named (B "content-type") l) eqn:E4.
  { rewrite (L4 eq_refl) in *.
    destruct (named (B "content-encoding") l); [specialize (L5 eq_refl); discriminate|].
    destruct (named (B "transfer-encoding") l); [specialize (L6 eq_refl); discriminate|].
    reflexivity. }
  destruct (named (B "content-encoding") l) eqn:E5.
  { rewrite (L5 eq_refl) in *.
    destruct (named (B "transfer-encoding") l); [specialize (L6 eq_refl); discriminate|].
    rewrite parse_encoding_string_any. reflexivity. }
  destruct (named (B "transfer-encoding") l) eqn:E6.
  { rewrite (L6 eq_refl) in *.
    rewrite parse_encoding_string_any. reflexivity. }
  destruct (List.length (hl_key l)) as [|[|[|[|[|[|[|[|[|[|[|[|[|[|[|[|[|[|nn]]]]]]]]]]]]]]]]]]; reflexivity.
Qed.

Lemma named_excl : forall a b l, named a l = true -> equal_fold a b = false -> named b l = false.
Proof.
  intros a b l Ha Hab. destruct (named b l) eqn:E; [|reflexivity].
  unfold named in *. rewrite equal_fold_sym in Ha. rewrite (equal_fold_trans _ _ _ Ha E) in Hab. discriminate.
Qed.

(* [upd name f ls d]: f of the last value of that name, or d *)
Lemma or_default_cons : forall (A : Type) (f : bytes -> A) name l ls (d : A),
  or_default (option_map f (last_value name (l :: ls))) d =
  or_default (option_map f (last_value name ls)) (if named name l then f (hl_value l) else d).
Proof.
  intros A f name l ls d. cbn [last_value]. destruct (last_value name ls); [reflexivity|].
  destruct (named name l); reflexivity.
Qed.
Lemma or_default_cons_id : forall name l ls (d : bytes),
  or_default (last_value name (l :: ls)) d =
  or_default (last_value name ls) (if named name l then hl_value l else d).
Proof.
  intros name l ls d. cbn [last_value]. destruct (last_value name ls); [reflexivity|].
  destruct (named name l); reflexivity.
Qed.

Lemma lines_any : forall cfg ls r,
  Forall wf_line ls ->
  fold_left (apply_line cfg) ls r =
  Request (r_method r) (r_path r) (r_query r) (r_params r) (r_proto r)
    (Storage (kv_pairs (r_headers r) ++ field_pairs ls) (kv_unique (r_headers r)) (kv_values (r_headers r)))
    (Encoding (or_default (option_map (capped (c_max_enc_tokens cfg)) (last_value (B "transfer-encoding") ls)) (enc_transfer (r_encoding r)))
              (or_default (option_map (capped (c_max_enc_tokens cfg)) (last_value (B "content-encoding") ls)) (enc_content (r_encoding r)))
              (or_default (option_map (capped_chunked (c_max_enc_tokens cfg)) (last_value (B "transfer-encoding") ls)) (enc_chunked (r_encoding r)))
              (existsb (named (B "trailer")) ls || enc_trailer (r_encoding r)))
    (or_default (option_map dec_value (last_value (B "content-length") ls)) (r_content_length r))
    (or_default (last_value (B "content-type") ls) (r_content_type r))
    (or_default (last_value (B "connection") ls) (r_connection r))
    (or_default (option_map offered_upgrade (last_value (B "upgrade") ls)) (r_upgrade r))
    (r_ctx r) (r_env r) (r_hijacked r).
Proof.
  induction ls as [|l ls IH]; intros r Hwf.
  - simpl. rewrite app_nil_r. destruct r as [rm rpa rq rpr rpt rh re rcl rct rco ru rctx renv rhj].
    destruct re as [e1 e2 e3 e4]. destruct rh. reflexivity.
  - inversion Hwf as [|l' ls' Hl Hls]. subst.
    cbn [fold_left]. rewrite IH by assumption.
    rewrite !or_default_cons, !or_default_cons_id. cbn [existsb].
    unfold apply_line. destruct (is_content_length l) eqn:Ecl.
    + change (named (B "content-length") l = true) in Ecl.
      rewrite (named_excl _ (B "transfer-encoding") _ Ecl eq_refl).
      rewrite (named_excl _ (B "content-encoding") _ Ecl eq_refl).
      rewrite (named_excl _ (B "content-type") _ Ecl eq_refl).
      rewrite (named_excl _ (B "connection") _ Ecl eq_refl).
      rewrite (named_excl _ (B "upgrade") _ Ecl eq_refl).
      rewrite (named_excl _ (B "trailer") _ Ecl eq_refl). rewrite Ecl.
      unfold field_pairs. cbn [filter]. change (is_content_length l = true) in Ecl. rewrite Ecl.
      reflexivity.
    + change (named (B "content-length") l = false) in Ecl. rewrite Ecl.
      rewrite apply_header_spec by apply Hl.
      unfold field_pairs. cbn [filter]. change (is_content_length l = false) in Ecl. rewrite Ecl.
      cbn [negb map r_method r_path r_query r_params r_proto r_headers r_encoding r_content_length
           r_content_type r_connection r_upgrade r_ctx r_env r_hijacked kv_add kv_pairs kv_unique kv_values
           enc_transfer enc_content enc_chunked enc_trailer].
      rewrite <- app_assoc. cbn [app].
      destruct (named (B "trailer") l); [rewrite orb_true_r|]; reflexivity.
Qed.

Lemma lines_means : forall cfg ls r,
  Forall wf_line ls ->
  Forall (fun l => named (B "transfer-encoding") l = true \/ named (B "content-encoding") l = true ->
                   (Z.of_nat (List.length (list_elements (hl_value l))) <= c_max_enc_tokens cfg)%Z) ls ->
  fold_left (apply_line cfg) ls r =
  Request (r_method r) (r_path r) (r_query r) (r_params r) (r_proto r)
    (Storage (kv_pairs (r_headers r) ++ field_pairs ls) (kv_unique (r_headers r)) (kv_values (r_headers r)))
    (Encoding (or_default (option_map list_elements (last_value (B "transfer-encoding") ls)) (enc_transfer (r_encoding r)))
              (or_default (option_map list_elements (last_value (B "content-encoding") ls)) (enc_content (r_encoding r)))
              (or_default (option_map mentions_chunked (last_value (B "transfer-encoding") ls)) (enc_chunked (r_encoding r)))
              (existsb (named (B "trailer")) ls || enc_trailer (r_encoding r)))
    (or_default (option_map dec_value (last_value (B "content-length") ls)) (r_content_length r))
    (or_default (last_value (B "content-type") ls) (r_content_type r))
    (or_default (last_value (B "connection") ls) (r_connection r))
    (or_default (option_map offered_upgrade (last_value (B "upgrade") ls)) (r_upgrade r))
    (r_ctx r) (r_env r) (r_hijacked r).
Proof.
  intros cfg ls r Hwf Hlim. rewrite lines_any by exact Hwf.
  assert (E : forall name, name = B "transfer-encoding" \/ name = B "content-encoding" ->
            forall v, last_value name ls = Some v -> capped (c_max_enc_tokens cfg) v = list_elements v).
  { intros name Hn v. induction Hlim as [|l ls0 Hl Hls IH]; [discriminate|]. inversion Hwf. subst. cbn [last_value].
    destruct (last_value name ls0) as [w|] eqn:El.
    - intros H. injection H as <-. apply IH; [assumption|reflexivity].
    - destruct (named name l) eqn:En; [|discriminate]. intros H. injection H as <-. unfold capped.
      destruct (Z.leb_spec (Z.of_nat (List.length (list_elements (hl_value l)))) (c_max_enc_tokens cfg)) as [_|C]; [reflexivity|].
      exfalso. apply (proj1 (Z.lt_nge _ _) C). apply Hl. destruct Hn as [->| ->]; [left|right]; exact En. }
  destruct (last_value (B "transfer-encoding") ls) as [v|] eqn:E1; destruct (last_value (B "content-encoding") ls) as [w|] eqn:E2;
    cbn [option_map or_default]; unfold capped_chunked, mentions_chunked;
    try rewrite (E (B "transfer-encoding") (or_introl eq_refl) v E1); try rewrite (E (B "content-encoding") (or_intror eq_refl) w E2); reflexivity.
Qed.

Lemma query_set_raw : forall q raw, q_raw (query_set q raw) = raw /\ q_parsed (query_set q raw) = false.
Proof. intros q raw. unfold query_set. destruct (q_parsed q); split; reflexivity. Qed.

Lemma head_result_means : forall cfg umax kmax vmax r0 h,
  wf_head h -> fits (cfg_limits cfg umax kmax vmax) h -> Means r0 h (head_result cfg r0 h).
Proof.
  intros cfg umax kmax vmax r0 h Hwf Hfit.
  destruct Hwf as (Hm & Hp & Hpath & Hq & Hlf & Hdec & Hquery & Hlines & Hcl).
  destruct Hfit as (F1 & F2 & F3 & F4 & F5 & F6).
  unfold head_result. rewrite lines_means by assumption.
  unfold line_effect. destruct (h_query h) as [q|] eqn:Eq; constructor; simpl; rewrite ?Eq;
    try reflexivity; try apply query_set_raw.
Qed.

(* ---- C01 ---- *)
Lemma segmentation : forall cfg umax kmax vmax p h reads tail,
  Ready umax kmax vmax p -> wf_head h -> fits (cfg_limits cfg umax kmax vmax) h ->
  concat reads = render_head h ++ tail ->
  exists p' extra rs, feed cfg p reads = (RDone p' extra, rs) /\ extra ++ concat rs = tail /\
    Ready umax kmax vmax p' /\ Means (p_req p) h (p_req p') /\ p_req p' = head_result cfg (p_req p) h.
Proof.
  intros cfg umax kmax vmax p h reads tail Hr Hwf Hfit Hc.
  destruct (feed_done cfg umax kmax vmax _ reads p _ tail (head_expect _ _ _ _ p h Hr Hwf Hfit) Hc)
    as (p' & extra & rs & H1 & H2 & H3 & H4).
  exists p', extra, rs. split; [exact H1|]. split; [exact H2|]. split; [exact H3|].
  rewrite H4. split; [|reflexivity]. eapply head_result_means; eassumption.
Qed.

Lemma prefix_pending : forall cfg umax kmax vmax p h reads more,
  Ready umax kmax vmax p -> wf_head h -> fits (cfg_limits cfg umax kmax vmax) h ->
  concat reads ++ more = render_head h -> more <> [] ->
  exists p', feed cfg p reads = (RPending p', []).
Proof.
  intros cfg umax kmax vmax p h reads more Hr Hwf Hfit Hc Hm.
  destruct (feed_pending cfg umax kmax vmax _ reads p _ more (head_expect _ _ _ _ p h Hr Hwf Hfit) Hc Hm)
    as (p' & H & _).
  exists p'. exact H.
Qed.
