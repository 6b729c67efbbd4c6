(* Lemmas behind C19-C21, C25-C28, C48. *)
From Verif Require Import M_Base M_Status M_Method M_Proto M_Client M_Request M_Response M_Serializer
  S_KeyValue S_Response L_Base L_KeyValue L_Tables L_Response L_Response2.

(* ---- C20 ---- *)
Lemma response_lines : forall v c reason fs body rest,
  response_text v c reason fs body ++ rest =
  (v ++ [SP] ++ c ++ [SP] ++ reason) ++ CRLF ++ concat (map (fun l => l ++ CRLF) (map bare fs)) ++ CRLF ++ (body ++ rest).
Proof. intros. unfold response_text. rewrite map_field_text. rewrite <- ?app_assoc. reflexivity. Qed.
Lemma cut_lines_text : forall p c reason fs body rest,
  clean reason -> Forall clean_field fs ->
  let l := response_text (version_of p) (itoa_N c) reason fs body ++ rest in
  cut_lines (S (List.length l)) l = Some ((version_of p ++ [SP] ++ itoa_N c ++ [SP] ++ reason) :: map bare fs, body ++ rest).
Proof.
  intros p c reason fs body rest Hr Hf l. subst l. rewrite response_lines. apply cut_lines_response.
  - assert (K : clean [SP]) by (apply cleanb_ok; reflexivity).
    apply clean_app; [apply version_clean|]. apply clean_app; [exact K|]. apply clean_app.
    + pose proof (proj1 (itoa_clean (Z.of_N c))) as H. unfold itoa in H.
      replace (Z.of_N c <? 0)%Z with false in H by (symmetry; apply Z.ltb_ge; lia). rewrite N2Z.id in H. exact H.
    + apply clean_app; [exact K|exact Hr].
  - destruct (version_of p); discriminate.
  - apply Forall_forall. intros l Hl. apply in_map_iff in Hl. destruct Hl as (e & <- & He). apply bare_clean.
    rewrite Forall_forall in Hf. apply Hf. exact He.
Qed.
Lemma read_text : forall head p c reason fs body rest,
  (100 <= c <= 999)%N -> clean reason -> Forall clean_field fs ->
  (head || bodyless c = true -> body = []) ->
  (head || bodyless c = false -> body_length (map trimmed fs) = Some (N.of_nat (List.length body))) ->
  read_response head (response_text (version_of p) (itoa_N c) reason fs body ++ rest) =
  Some (Msg (version_of p) c reason (map trimmed fs) body, rest).
Proof.
  intros head p c reason fs body rest Hc Hr Hf Hb Hl. unfold read_response.
  rewrite cut_lines_text by assumption. rewrite read_start_text by (try apply version_clean; exact Hc).
  rewrite read_fields_bare.
  2:{ apply Forall_forall. intros e He. rewrite Forall_forall in Hf. apply (Hf e He). }
  destruct (head || bodyless c).
  - rewrite (Hb eq_refl). reflexivity.
  - rewrite (Hl eq_refl). replace (_ <? _)%N with false.
    2:{ symmetry. apply N.ltb_ge. rewrite app_length. lia. }
    rewrite Nat2N.id. rewrite firstn_app, Nat.sub_diag, firstn_all, skipn_app, Nat.sub_diag, skipn_all. cbn [firstn skipn].
    rewrite app_nil_r. reflexivity.
Qed.
Lemma all_values_app : forall a b k, all_values (a ++ b) k = all_values a k ++ all_values b k.
Proof. intros. unfold all_values. rewrite filter_app, map_app. reflexivity. Qed.
Lemma all_values_absent : forall l k, Forall (fun e => ~ same_key (fst e) k) l -> all_values l k = [].
Proof.
  induction l as [|[n v] l IH]; intros k H; [reflexivity|]. inversion H as [|? ? H1 H2]; subst.
  unfold all_values. cbn [filter fst]. unfold same_keyb. destruct (list_eq_dec _ _ _) as [E|E]; [contradiction|].
  apply (IH k H2).
Qed.
Lemma join_clean : forall l sep, clean sep -> Forall clean l -> clean (join sep l).
Proof.
  induction l as [|x l IH]; intros sep Hs H; [apply clean_nil|]. inversion H as [|? ? H1 H2]; subst.
  destruct l as [|y l]; [exact H1|]. change (clean (x ++ sep ++ join sep (y :: l))). repeat apply clean_app; try assumption. apply IH; assumption.
Qed.
Lemma cookie_clean : forall n c, clean n -> clean_cookie c -> clean (set_cookie_text n c).
Proof.
  intros n c Hn (C1 & C2 & C3 & C4 & C5 & C6). unfold set_cookie_text. apply join_clean; [apply cleanb_ok; reflexivity|].
  constructor.
  - repeat apply clean_app; try assumption. apply cleanb_ok. reflexivity.
  - apply Forall_forall. intros l Hl. apply in_map_iff in Hl. destruct Hl as ([a o] & <- & Ha).
    assert (K : clean a /\ match o with Some v => clean v | None => True end).
    { unfold attributes in Ha. repeat (apply in_app_or in Ha; destruct Ha as [Ha|Ha]).
      - destruct (nonempty (ck_path c)); [|destruct Ha]. destruct Ha as [Ha|[]]. injection Ha as <- <-. split; [apply cleanb_ok; reflexivity|assumption].
      - destruct (nonempty (ck_domain c)); [|destruct Ha]. destruct Ha as [Ha|[]]. injection Ha as <- <-. split; [apply cleanb_ok; reflexivity|assumption].
      - destruct (ck_expires c); [|destruct Ha]. destruct Ha as [Ha|[]]. injection Ha as <- <-. split; [apply cleanb_ok; reflexivity|assumption].
      - destruct (negb _); [|destruct Ha]. destruct Ha as [Ha|[]]. injection Ha as <- <-. split; [assumption|apply itoa_clean].
      - destruct (nonempty (ck_samesite c)); [|destruct Ha]. destruct Ha as [Ha|[]]. injection Ha as <- <-. split; [apply cleanb_ok; reflexivity|assumption].
      - destruct (ck_secure c); [|destruct Ha]. destruct Ha as [Ha|[]]. injection Ha as <- <-. split; [apply cleanb_ok; reflexivity|exact I].
      - destruct (ck_httponly c); [|destruct Ha]. destruct Ha as [Ha|[]]. injection Ha as <- <-. split; [apply cleanb_ok; reflexivity|exact I]. }
    destruct K as [K1 K2]. unfold attribute_text. cbn [fst snd]. destruct o as [v|]; [|exact K1].
    repeat apply clean_app; try assumption. apply cleanb_ok. reflexivity.
Qed.
Lemma known_name : forall n, cleanb n = true -> n <> [] -> before_byte x3a n = None -> clean_name n.
Proof.
  intros n C Ne Nc. split; [apply cleanb_ok; exact C|]. split; [exact Ne|]. intros Hi.
  clear C Ne. induction n as [|x n IH]; [exact Hi|]. cbn [before_byte] in Nc. destruct (Byte.eqb x x3a) eqn:E; [discriminate|].
  destruct Hi as [->|Hi]; [rewrite beq_refl in E; discriminate|]. apply IH; [|exact Hi]. destruct (before_byte x3a n) as [[? ?]|]; [discriminate|reflexivity].
Qed.
Lemma sent_fields_clean : forall defs past f, Renderable f -> Forall clean_field defs -> Forall clean_field (sent_fields defs past f).
Proof.
  intros defs past f (H1 & H2 & H3 & H4) Hd. unfold sent_fields. repeat (apply Forall_app; split).
  - exact H1.
  - unfold remaining. apply Forall_forall. intros e He. apply filter_In in He. rewrite Forall_forall in Hd. apply Hd. tauto.
  - constructor; [|constructor]. split; [apply known_name; [reflexivity|discriminate|reflexivity]|exact H2].
  - destruct (f_te f) as [|x t]; [constructor|]. constructor; [|constructor]. split; [apply known_name; [reflexivity|discriminate|reflexivity]|exact H3].
  - apply Forall_forall. intros e He. apply in_map_iff in He. destruct He as (c & <- & Hc). split.
    + apply known_name; [reflexivity|discriminate|reflexivity].
    + apply cookie_clean; [apply cleanb_ok; reflexivity|]. rewrite Forall_forall in H4. apply H4. exact Hc.
  - constructor; [|constructor]. split; [apply known_name; [reflexivity|discriminate|reflexivity]|apply itoa_clean].
Qed.
Lemma all_values_trimmed_absent : forall l k, Forall (fun e => ~ same_key (fst e) k) l -> all_values (map trimmed l) k = [].
Proof.
  intros l k H. apply all_values_absent. apply Forall_forall. intros e He. apply in_map_iff in He. destruct He as (e0 & <- & He).
  rewrite Forall_forall in H. exact (H e0 He).
Qed.
Lemma sent_body_length : forall defs past f, Forall (fun e => ~ framing_name (fst e)) (f_headers f ++ defs) -> f_te f = [] ->
  body_length (map trimmed (sent_fields defs past f)) = Some (N.of_nat (List.length (f_body f))).
Proof.
  intros defs past f H Ht. unfold body_length, sent_fields. rewrite Ht. apply Forall_app in H. destruct H as [Hh Hd].
  rewrite !map_app, !all_values_app.
  assert (K : forall k, (same_key k (B "content-length") \/ same_key k (B "transfer-encoding")) ->
            all_values (map trimmed (f_headers f)) k = [] /\ all_values (map trimmed (remaining (past ++ names f) defs)) k = []).
  { intros k Hk. split; apply all_values_trimmed_absent; apply Forall_forall; intros e He S.
    - rewrite Forall_forall in Hh. apply (Hh e He). unfold framing_name, same_key in *. destruct Hk; [left|right]; congruence.
    - apply filter_In in He. rewrite Forall_forall in Hd. apply (Hd e (proj1 He)). unfold framing_name, same_key in *. destruct Hk; [left|right]; congruence. }
  destruct (K (B "transfer-encoding")) as [K1 K2]; [right; reflexivity|].
  destruct (K (B "content-length")) as [K3 K4]; [left; reflexivity|].
  unfold entry in *. rewrite K1, K2, K3, K4.
  assert (C : forall k, same_keyb (B "Set-Cookie") k = false -> all_values (map trimmed (map (fun c => (B "Set-Cookie", set_cookie_text (B "MaxAge") c)) (f_cookies f))) k = []).
  { intros k Hk. induction (f_cookies f) as [|c cs IH]; [reflexivity|]. unfold all_values in *. cbn [map trimmed filter fst]. rewrite Hk. exact IH. }
  rewrite !C by reflexivity.
  change (all_values (map trimmed [(B "Content-Type", f_ctype f)]) (B "transfer-encoding")) with (@nil bytes).
  change (all_values (map trimmed [(B "Content-Type", f_ctype f)]) (B "content-length")) with (@nil bytes).
  change (all_values (map trimmed [(B "Content-Length", itoa (len (f_body f)))]) (B "transfer-encoding")) with (@nil bytes).
  change (all_values (map trimmed [(B "Content-Length", itoa (len (f_body f)))]) (B "content-length")) with [trim (itoa (len (f_body f)))].
  cbn [app map all_values filter]. unfold len. rewrite itoa_nat, trim_itoa. apply itoa_N_dec.
Qed.
Lemma client_write_ok : forall c d, write_ok c -> exists c', client_write c d = (true, c') /\ cl_out c' = cl_out c ++ [d] /\ cl_wres c' = tl (cl_wres c).
Proof.
  intros c d H. unfold client_write, write_ok in *. destruct (cl_wres c) as [|[k|] w]; cbn in H; try discriminate H;
    eexists; repeat split; reflexivity.
Qed.
Definition is_head (r : request) : bool := method_eqb (r_method r) HEAD.
Theorem plain_framed : forall fbs defs past s p r f c res s' c' f',
  Served fbs defs past s -> distinct_names defs -> Forall clean_field defs ->
  p <> PUnknown -> (100 <= f_code f <= 999)%N -> Renderable f ->
  Forall (fun e => ~ framing_name (fst e)) (f_headers f ++ defs) -> f_te f = [] ->
  (bodyless (f_code f) = true -> f_body f = []) -> f_att f = None -> write_ok c ->
  write_response p r f s c = (res, s', c', f') ->
  exists out, cl_out c' = cl_out c ++ [s_buff s ++ out] /\ s_buff s' = [] /\
    forall rest, read_response (method_eqb (r_method r) HEAD) (out ++ rest) =
      Some (Msg (version_of p) (f_code f) (sent_reason f) (map trimmed (sent_fields defs past f))
                (if method_eqb (r_method r) HEAD then [] else f_body f), rest).
Proof.
  intros fbs defs past s p r f c res s' c' f' Hs Hd Hcd Hp Hc Hr Hf Ht Hb Ha Hw H.
  rewrite plain_write in H by exact Ha.
  rewrite (plain_is_response p r f fbs defs past s Hs Hd Hp) in H.
  set (out := response_text _ _ _ _ _) in *. destruct (client_write_ok c (s_buff s ++ out) Hw) as (c2 & E & Eo & _).
  rewrite E in H. injection H as <- <- <- <-. exists out. split; [exact Eo|]. split; [reflexivity|].
  intros rest. subst out. fold (shown_body r f). apply read_text; try assumption.
  - apply reason_clean.
  - apply sent_fields_clean; assumption.
  - intros Hx. unfold shown_body. destruct (method_eqb (r_method r) HEAD); [reflexivity|]. apply Hb. exact Hx.
  - intros Hx. apply orb_false_iff in Hx. destruct Hx as [Hx1 Hx2]. unfold shown_body. rewrite Hx1. apply sent_body_length; assumption.
Qed.
Theorem plain_shape : forall fbs defs past s p r f c res s' c' f',
  Served fbs defs past s -> distinct_names defs -> p <> PUnknown -> f_att f = None -> write_ok c ->
  write_response p r f s c = (res, s', c', f') ->
  cl_out c' = cl_out c ++ [s_buff s ++ response_text (version_of p) (itoa_N (f_code f)) (sent_reason f) (sent_fields defs past f)
    (if method_eqb (r_method r) HEAD then [] else f_body f)] /\ s_buff s' = [].
Proof.
  intros fbs defs past s p r f c res s' c' f' Hs Hd Hp Ha Hw H.
  rewrite plain_write in H by exact Ha.
  rewrite (plain_is_response p r f fbs defs past s Hs Hd Hp) in H.
  fold (shown_body r f). set (out := response_text _ _ _ _ _) in *. destruct (client_write_ok c (s_buff s ++ out) Hw) as (c2 & E & Eo & _).
  rewrite E in H. injection H as <- <- <- <-. split; [exact Eo|reflexivity].
Qed.
(* ---- C21 ---- *)
Theorem plain_header_lines : forall fbs defs past s p r f c res s' c' f',
  Served fbs defs past s -> distinct_names defs -> Forall clean_field defs -> p <> PUnknown -> Renderable f ->
  f_att f = None -> write_ok c -> write_response p r f s c = (res, s', c', f') ->
  exists out, cl_out c' = cl_out c ++ [s_buff s ++ out] /\
    header_lines out = Some (List.length (sent_fields defs past f)).
Proof.
  intros fbs defs past s p r f c res s' c' f' Hs Hd Hcd Hp Hr Ha Hw H.
  destruct (plain_shape _ _ _ _ _ _ _ _ _ _ _ _ Hs Hd Hp Ha Hw H) as [E _]. eexists. split; [exact E|].
  unfold header_lines. set (l := response_text _ _ _ _ _). replace l with (l ++ []) by apply app_nil_r. subst l.
  rewrite cut_lines_text; [|apply reason_clean|apply sent_fields_clean; assumption].
  rewrite map_length. reflexivity.
Qed.
(* ---- C25 ---- *)
Theorem head_is_get_cut : forall p r f s c, f_att f = None -> r_method r = GET -> write_ok c ->
  let r' := set_method HEAD r in
  forall res s1 c1 f1 res' s2 c2 f2, write_response p r f s c = (res, s1, c1, f1) -> write_response p r' f s c = (res', s2, c2, f2) ->
  res = res' /\ s1 = s2 /\
  exists out, cl_out c2 = cl_out c ++ [s_buff s ++ out] /\ cl_out c1 = cl_out c ++ [s_buff s ++ out ++ f_body f] /\
    exists out', out = out' ++ CRLF ++ CRLF.
Proof.
  intros p r f s c Ha Hm Hw r' res s1 c1 f1 res' s2 c2 f2 H1 H2. rewrite plain_write in H1, H2 by exact Ha.
  set (d := excl (names f) (s_defaults s)) in *.
  assert (E : plain_text_of p r f d = plain_text_of p r' f d ++ f_body f).
  { unfold plain_text_of, shown_body. replace (method_eqb (r_method r) HEAD) with false by (rewrite Hm; reflexivity).
    replace (method_eqb (r_method r') HEAD) with true by reflexivity. rewrite app_nil_r, <- ?app_assoc. reflexivity. }
  destruct (client_write_ok c (s_buff s ++ plain_text_of p r f d) Hw) as (ca & Ea & Oa & _).
  destruct (client_write_ok c (s_buff s ++ plain_text_of p r' f d) Hw) as (cb & Eb & Ob & _).
  rewrite Ea in H1. rewrite Eb in H2. injection H1 as <- <- <- <-. injection H2 as <- <- <- <-. cbn [fst snd].
  split; [reflexivity|]. split; [reflexivity|]. exists (plain_text_of p r' f d). split; [exact Ob|]. split; [rewrite Oa, E; reflexivity|].
  exists (proto_string p ++ itoa_N (f_code f) ++ [SP] ++ sent_reason f ++ CRLF ++ headers_text f d ++
    concat (map field_text (cookie_fields f)) ++ B "Content-Length: " ++ itoa (len (f_body f))).
  unfold plain_text_of, shown_body. replace (method_eqb (r_method r') HEAD) with true by reflexivity.
  change (field_text (B "Content-Length", itoa (len (f_body f)))) with (B "Content-Length: " ++ itoa (len (f_body f)) ++ CRLF).
  rewrite <- ?app_assoc. reflexivity.
Qed.
(* ---- C27 ---- *)
Definition stays_open (p : proto) (connection : bytes) : Prop :=
  (p = HTTP10 /\ same_key connection (B "keep-alive")) \/ (p = HTTP11 /\ ~ same_key connection (B "close")).
Theorem persistence : forall p r f s c res s' c' f', f_att f = None -> r_upgrade r = PUnknown -> write_ok c ->
  write_response p r f s c = (res, s', c', f') ->
  (res = WOk \/ res = WClose) /\
  (res = WOk <-> (p = HTTP10 /\ same_key (r_connection r) (B "keep-alive")) \/ (p = HTTP11 /\ ~ same_key (r_connection r) (B "close"))).
Proof.
  intros p r f s c res s' c' f' Ha Hu Hw H. rewrite plain_write in H by exact Ha.
  destruct (client_write_ok c (s_buff s ++ plain_text_of p r f (excl (names f) (s_defaults s))) Hw) as (c2 & E & _).
  rewrite E in H. injection H as <- <- <- <-. cbn [fst]. unfold close_result. rewrite Hu. cbn [proto_eqb]. rewrite andb_true_r.
  assert (K : is_keep_alive p r = true <-> (p = HTTP10 /\ same_key (r_connection r) (B "keep-alive")) \/ (p = HTTP11 /\ ~ same_key (r_connection r) (B "close"))).
  { unfold same_key. rewrite <- !equal_fold_eq. destruct p; cbn [is_keep_alive].
    - split; [discriminate|intros [[A _]|[A _]]; discriminate A].
    - split; [intros X; left; split; [reflexivity|exact X]|intros [[_ X]|[A _]]; [exact X|discriminate A]].
    - rewrite negb_true_iff, <- not_true_iff_false. split; [intros X; right; split; [reflexivity|exact X]|intros [[A _]|[_ X]]; [discriminate A|exact X]].
    - split; [discriminate|intros [[A _]|[A _]]; discriminate A]. }
  destruct (is_keep_alive p r); cbn [negb].
  - split; [left; reflexivity|]. split; [intros _; apply K; reflexivity|reflexivity].
  - split; [right; reflexivity|]. split; [discriminate|]. intros X. apply K in X. discriminate X.
Qed.
Lemma persistence_upgrade : forall p r f s c res s' c' f', f_att f = None -> r_upgrade r <> PUnknown -> write_ok c ->
  write_response p r f s c = (res, s', c', f') -> res = WOk.
Proof.
  intros p r f s c res s' c' f' Ha Hu Hw H. rewrite plain_write in H by exact Ha.
  destruct (client_write_ok c (s_buff s ++ plain_text_of p r f (excl (names f) (s_defaults s))) Hw) as (c2 & E & _).
  rewrite E in H. injection H as <- <- <- <-. cbn [fst]. unfold close_result. destruct (r_upgrade r); try contradiction; cbn [proto_eqb]; rewrite andb_false_r; reflexivity.
Qed.
(* ---- C26 ---- *)
Lemma remaining_values : forall ns defs k v, distinct_names defs -> In (k, v) defs ->
  all_values (remaining ns defs) k = if named ns k then [] else [v].
Proof.
  intros ns. induction defs as [|[n w] defs IH]; intros k v Hd Hi; [destruct Hi|].
  destruct Hd as [Hn Hd]. unfold remaining in *. cbn [filter fst].
  assert (Hskip : forall l, named (map fst l) n = false -> all_values (filter (fun d => negb (named ns (fst d))) l) n = []).
  { intros l Hl. apply all_values_absent. apply Forall_forall. intros e He S. apply filter_In in He.
    assert (named (map fst l) n = true); [|congruence]. apply existsb_exists. exists (fst e). split; [apply in_map; tauto|].
    unfold same_keyb. destruct (list_eq_dec _ _ _); [reflexivity|contradiction]. }
  destruct Hi as [Hi|Hi].
  - injection Hi as -> ->. destruct (named ns k) eqn:E; cbn [negb].
    + apply Hskip. exact Hn.
    + change (filter (fun d => negb (named ns (fst d))) defs) with (remaining ns defs). 
      change ((k, v) :: remaining ns defs) with ([(k, v)] ++ remaining ns defs). rewrite all_values_app.
      unfold remaining. rewrite (Hskip defs Hn). unfold all_values. cbn [filter fst].
      unfold same_keyb. destruct (list_eq_dec _ _ _); [reflexivity|congruence].
  - assert (Hnk : same_keyb n k = false).
    { destruct (same_keyb n k) eqn:E; [|reflexivity]. assert (named (map fst defs) n = true); [|congruence].
      apply existsb_exists. exists k. split; [apply in_map_iff; exists (k, v); tauto|].
      rewrite same_keyb_fold in *. rewrite equal_fold_sym. exact E. }
    destruct (negb (named ns n)); [|apply IH; assumption].
    unfold all_values. cbn [filter fst]. rewrite Hnk. apply (IH k v Hd Hi).
Qed.
Theorem defaults_sent : forall fbs defs past s p r f c res s' c' f' k v,
  Served fbs defs past s -> distinct_names defs -> p <> PUnknown -> f_att f = None -> write_ok c ->
  write_response p r f s c = (res, s', c', f') -> In (k, v) defs ->
  (forall k', In k' [B "Content-Type"; B "Transfer-Encoding"; B "Set-Cookie"; B "Content-Length"] -> ~ same_key k' k) ->
  exists fs, cl_out c' = cl_out c ++ [s_buff s ++ response_text (version_of p) (itoa_N (f_code f)) (sent_reason f) fs
    (if method_eqb (r_method r) HEAD then [] else f_body f)] /\
   all_values fs k = all_values (f_headers f) k ++ (if named (past ++ names f) k then [] else [v]).
Proof.
  intros fbs defs past s p r f c res s' c' f' k v Hs Hd Hp Ha Hw H Hi Hk.
  destruct (plain_shape _ _ _ _ _ _ _ _ _ _ _ _ Hs Hd Hp Ha Hw H) as [E _].
  exists (sent_fields defs past f). split; [exact E|]. clear E H.
  assert (N : forall k', In k' [B "Content-Type"; B "Transfer-Encoding"; B "Set-Cookie"; B "Content-Length"] -> forall x, all_values [(k', x)] k = []).
  { intros k' Hk' x. apply all_values_absent. constructor; [apply Hk; exact Hk'|constructor]. }
  assert (Es : sent_fields defs past f = f_headers f ++ remaining (past ++ names f) defs ++ [(B "Content-Type", f_ctype f)] ++
    te_fields f ++ cookie_fields f ++ [(B "Content-Length", itoa (len (f_body f)))]) by reflexivity.
  rewrite Es, !all_values_app. rewrite (remaining_values _ _ k v Hd Hi).
  rewrite (N (B "Content-Type")) by (cbn; tauto). rewrite (N (B "Content-Length")) by (cbn; tauto).
  assert (Et : all_values (te_fields f) k = []).
  { unfold te_fields. destruct (f_te f); [reflexivity|]. apply N. cbn; tauto. }
  assert (Ec : all_values (cookie_fields f) k = []).
  { apply all_values_absent. apply Forall_forall. intros e He. apply in_map_iff in He. destruct He as (? & <- & _). apply Hk. cbn; tauto. }
  rewrite Et, Ec. rewrite !app_nil_r. reflexivity.
Qed.
(* ---- C48 ---- *)
Lemma clear_is_new : forall f, fields_clear f = new_response.
Proof. reflexivity. Qed.
