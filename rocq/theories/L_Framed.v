(* Lemmas: exactly which responses are read back as they were meant. *)
From Verif Require Import M_Base M_Status M_Method M_Proto M_KeyValue M_Request M_Client M_Response M_Serializer S_KeyValue S_Response
  L_Base L_Response L_Response2 L_Response3.

(* ---- what a reader returns has no line ends in it ---- *)
Lemma cut_line_out : forall l a b, cut_line l = Some (a, b) -> clean a.
Proof.
  induction l as [|x l IH]; intros a b H; [discriminate|]. cbn [cut_line] in H. destruct (Byte.eqb x CR) eqn:E1.
  - destruct l as [|y l]; [discriminate|]. destruct (Byte.eqb y LF); [|discriminate]. injection H as <- _. apply clean_nil.
  - destruct (Byte.eqb x LF) eqn:E2; [discriminate|]. destruct (cut_line l) as [[a' b']|]; [|discriminate]. injection H as <- <-.
    destruct (IH _ _ eq_refl) as [C1 C2]. apply beq_neq in E1. apply beq_neq in E2. split; intros [Hx|Hx]; congruence || auto.
Qed.
Lemma cut_lines_out : forall fuel l ls rest, cut_lines fuel l = Some (ls, rest) -> Forall clean ls.
Proof.
  induction fuel as [|fuel IH]; intros l ls rest H; [discriminate|]. cbn [cut_lines] in H. destruct (cut_line l) as [[[|x ln] r]|] eqn:E; [| |discriminate].
  - injection H as <- _. constructor.
  - destruct (cut_lines fuel r) as [[ls' r']|] eqn:F; [|discriminate]. injection H as <- _. constructor; [apply (cut_line_out _ _ _ E)|apply (IH _ _ _ F)].
Qed.
Lemma before_byte_out : forall c l a b, before_byte c l = Some (a, b) -> l = a ++ c :: b /\ ~ In c a.
Proof.
  intros c. induction l as [|x l IH]; intros a b H; [discriminate|]. cbn [before_byte] in H. destruct (Byte.eqb x c) eqn:E.
  - injection H as <- <-. apply beq_eq in E. subst. split; [reflexivity|intros []].
  - destruct (before_byte c l) as [[a' b']|]; [|discriminate]. injection H as <- <-. destruct (IH _ _ eq_refl) as [-> N].
    apply beq_neq in E. split; [reflexivity|]. intros [X|X]; auto.
Qed.
Lemma ltrim_in : forall x l, is_ows x = false -> (In x (ltrim l) <-> In x l).
Proof.
  intros x l H. induction l as [|y l IH]; [reflexivity|]. cbn [ltrim]. destruct (is_ows y) eqn:E; [|reflexivity].
  rewrite IH. cbn [In]. split; [auto|]. intros [->|X]; [congruence|exact X].
Qed.
Lemma trim_in : forall x l, is_ows x = false -> (In x (trim l) <-> In x l).
Proof. intros x l H. unfold trim. rewrite <- in_rev, ltrim_in, <- in_rev, ltrim_in by exact H. reflexivity. Qed.
Lemma trim_clean : forall l, clean (trim l) <-> clean l.
Proof. intros l. unfold clean. rewrite !trim_in by reflexivity. reflexivity. Qed.
Lemma clean_parts : forall a b, clean (a ++ b) -> clean a /\ clean b.
Proof. intros a b [H1 H2]. unfold clean. rewrite in_app_iff in H1, H2. tauto. Qed.
Lemma clean_rest : forall x a, clean (x :: a) -> clean a.
Proof. intros x a [H1 H2]. split; intros H; [apply H1|apply H2]; right; exact H. Qed.
Lemma read_field_out : forall ln e, clean ln -> read_field ln = Some e -> clean_name (fst e) /\ clean (snd e).
Proof.
  intros ln e C H. unfold read_field in H. destruct (before_byte x3a ln) as [[[|x n] v]|] eqn:E; try discriminate. injection H as <-.
  destruct (before_byte_out _ _ _ _ E) as [-> N]. apply clean_parts in C. destruct C as [C1 C2]. cbn [fst snd]. split.
  - split; [exact C1|]. split; [discriminate|exact N].
  - apply trim_clean. change (x3a :: v) with ([x3a] ++ v) in C2. apply clean_parts in C2. apply C2.
Qed.
Lemma read_fields_out : forall ls es, Forall clean ls -> read_fields ls = Some es -> Forall (fun e => clean_name (fst e) /\ clean (snd e)) es.
Proof.
  induction ls as [|l ls IH]; intros es C H; cbn [read_fields] in H; [injection H as <-; constructor|].
  inversion C as [|? ? C1 C2]; subst. destruct (read_field l) as [e|] eqn:E; [|discriminate]. destruct (read_fields ls) as [es'|] eqn:F; [|discriminate].
  injection H as <-. constructor; [apply (read_field_out _ _ C1 E)|apply (IH _ C2 eq_refl)].
Qed.
Lemma three_digits : forall c, List.length (itoa_N c) = 3%nat -> (100 <= c)%N.
Proof.
  intros c H. destruct (N.le_gt_cases 100 c) as [L|L]; [exact L|]. exfalso.
  assert (K : forallb (fun n => negb (Nat.eqb (List.length (itoa_N (N.of_nat n))) 3)) (seq 0 100) = true) by (vm_compute; reflexivity).
  rewrite forallb_forall in K. specialize (K (N.to_nat c)). rewrite N2Nat.id, H in K. discriminate K. apply in_seq. lia.
Qed.
Lemma dec_three : forall a b d n, dec_number [a; b; d] = Some n -> (n <= 999)%N.
Proof.
  intros a b d n H. unfold dec_number in H. cbn [fold_left] in H. unfold dec_digit in H.
  repeat match type of H with context [if ?x && ?y then _ else _] => destruct x eqn:?; destruct y eqn:?; cbn [andb] in H; try discriminate H end.
  repeat match goal with X : (_ <=? _)%N = true |- _ => apply N.leb_le in X end.
  assert (K : forall x y : N, Some x = Some y -> x = y) by congruence. apply K in H. lia.
Qed.

(* ---- texts that are read as they were meant ---- *)
Lemma framed_exact : forall head p c reason fs body, clean reason ->
  ((forall rest, read_response head (response_text (version_of p) (itoa_N c) reason fs body ++ rest) =
      Some (Msg (version_of p) c reason (map trimmed fs) body, rest)) <->
   (100 <= c <= 999)%N /\ Forall clean_field fs /\ (head || bodyless c = true -> body = []) /\
   (head || bodyless c = false -> body_length (map trimmed fs) = Some (N.of_nat (List.length body)))).
Proof.
  intros head p c reason fs body Hr. split; [|intros (H1 & H2 & H3 & H4) rest; apply read_text; assumption].
  intros H. specialize (H []). unfold read_response in H.
  set (l := response_text (version_of p) (itoa_N c) reason fs body ++ []) in H.
  destruct (cut_lines (S (List.length l)) l) as [[[|start ls] rest]|] eqn:E; try discriminate H.
  assert (F : Forall clean_field fs).
  { pose proof (cut_lines_out _ _ _ _ E) as C. inversion C as [|? ? _ C2]; subst.
    destruct (read_start start) as [[[v n] rs]|]; [|discriminate H]. destruct (read_fields ls) as [es|] eqn:R; [|discriminate H].
    assert (es = map trimmed fs).
    { destruct (head || bodyless n); [injection H; congruence|]. destruct (body_length es); [|discriminate H]. destruct (_ <? _)%N; [discriminate H|]. injection H; congruence. }
    subst es. apply (read_fields_out _ _ C2) in R. clear -R. induction fs as [|e fs IH]; [constructor|]. inversion R as [|? ? [R1 R2] R3]; subst.
    constructor; [|apply IH; exact R3]. split; [exact R1|]. apply trim_clean. exact R2. }
  subst l. rewrite (cut_lines_text p c reason fs body [] Hr F) in E. injection E as <- <- <-.
  rewrite read_fields_bare in H by (eapply Forall_impl; [|exact F]; intros e He; apply He).
  destruct (read_start _) as [[[v n] rs]|] eqn:R; [|discriminate H].
  assert (G : v = version_of p /\ n = c /\ rs = reason).
  { destruct (head || bodyless n); [injection H; auto|]. destruct (body_length _); [|discriminate H]. destruct (_ <? _)%N; [discriminate H|]. injection H; auto. }
  destruct G as (-> & -> & ->).
  assert (Hc : (100 <= c <= 999)%N).
  { unfold read_start in R. cbn [app] in R. rewrite (before_byte_app SP (version_of p)) in R by apply version_clean.
    destruct (itoa_N c ++ SP :: reason) as [|a [|b [|d [|s rs]]]] eqn:I; try discriminate R.
    destruct (Byte.eqb s SP); [|discriminate R]. destruct (dec_number [a; b; d]) as [n|] eqn:D; [|discriminate R]. injection R as -> ->.
    split; [|apply (dec_three _ _ _ _ D)]. apply three_digits. apply (f_equal (@List.length byte)) in I. rewrite app_length in I. cbn [List.length] in I. lia. }
  split; [exact Hc|]. split; [exact F|]. split; intros Hh; rewrite Hh in H.
  - injection H; congruence.
  - destruct (body_length _) as [n|] eqn:BL; [|discriminate H]. destruct (_ <? n)%N eqn:Lt; [discriminate H|]. injection H as H1 H2. rewrite app_nil_r in H1, Lt.
    f_equal. apply N.ltb_ge in Lt. rewrite <- H1, firstn_length_le by lia. lia.
Qed.

(* ---- in terms of the response ---- *)
Lemma all_values_none : forall l k, all_values l k = [] <-> Forall (fun e => ~ same_key (fst e) k) l.
Proof.
  intros l k. split; [|apply all_values_absent]. induction l as [|[n v] l IH]; intros H; [constructor|].
  unfold all_values in H. cbn [filter fst] in H. unfold same_keyb in H at 1. destruct (list_eq_dec _ _ _) as [E|E]; [discriminate H|].
  constructor; [exact E|apply IH; exact H].
Qed.
Lemma all_values_trimmed : forall l k, all_values (map trimmed l) k = map trim (all_values l k).
Proof.
  induction l as [|[n v] l IH]; intros k; [reflexivity|]. unfold all_values in *. cbn [map trimmed filter fst snd].
  destruct (same_keyb n k); cbn [map snd]; rewrite IH; reflexivity.
Qed.
Lemma cookies_no_frame : forall cs k, same_keyb (B "Set-Cookie") k = false ->
  all_values (map (fun c => (B "Set-Cookie", set_cookie_text (B "MaxAge") c)) cs) k = [].
Proof. intros cs k Hk. induction cs as [|c cs IH]; [reflexivity|]. unfold all_values in *. cbn [map filter fst]. rewrite Hk. exact IH. Qed.
Lemma sent_length_exact : forall defs past f n,
  body_length (map trimmed (sent_fields defs past f)) = Some n <->
  f_te f = [] /\ Forall (fun e => ~ framing_name (fst e)) (f_headers f ++ remaining (past ++ names f) defs) /\ n = N.of_nat (List.length (f_body f)).
Proof.
  intros defs past f n. set (rem := remaining (past ++ names f) defs).
  assert (T : all_values (sent_fields defs past f) (B "transfer-encoding") =
    all_values (f_headers f) (B "transfer-encoding") ++ all_values rem (B "transfer-encoding") ++ (match f_te f with [] => [] | t => [t] end)).
  { unfold sent_fields. fold rem. rewrite !all_values_app, cookies_no_frame by reflexivity. destruct (f_te f); cbn [app]; rewrite ?app_nil_r; reflexivity. }
  assert (C : all_values (sent_fields defs past f) (B "content-length") =
    all_values (f_headers f) (B "content-length") ++ all_values rem (B "content-length") ++ [itoa (len (f_body f))]).
  { unfold sent_fields. fold rem. rewrite !all_values_app, cookies_no_frame by reflexivity. destruct (f_te f); reflexivity. }
  unfold body_length. rewrite !all_values_trimmed, T, C, !map_app. cbn [map]. unfold len at 1. rewrite itoa_nat, trim_itoa.
  rewrite Forall_app. split.
  - intros H. destruct (all_values (f_headers f) (B "transfer-encoding")) eqn:A1; [|discriminate H].
    destruct (all_values rem (B "transfer-encoding")) eqn:A2; [|discriminate H]. destruct (f_te f) as [|x t]; [|discriminate H]. cbn [map app] in H.
    destruct (all_values (f_headers f) (B "content-length")) as [|y ys] eqn:A3.
    2:{ cbn [map app] in H. destruct ys; cbn [map app] in H; [|discriminate H]. destruct (map trim (all_values rem (B "content-length"))); discriminate H. }
    destruct (all_values rem (B "content-length")) as [|y ys] eqn:A4.
    2:{ cbn [map app] in H. destruct ys; discriminate H. }
    cbn [map app] in H. rewrite itoa_N_dec in H. injection H as <-. split; [reflexivity|]. split; [|reflexivity].
    rewrite all_values_none in A1, A2, A3, A4.
    split; apply Forall_forall; intros e He [X|X]; rewrite Forall_forall in A1, A2, A3, A4; [apply (A3 e He X)|apply (A1 e He X)|apply (A4 e He X)|apply (A2 e He X)].
  - intros (-> & (F1 & F2) & ->).
    assert (A : forall l k, Forall (fun e => ~ framing_name (fst e)) l -> (k = B "content-length" \/ k = B "transfer-encoding") -> all_values l k = []).
    { intros l k F K. apply all_values_none. eapply Forall_impl; [|exact F]. intros e N X. apply N. unfold framing_name. destruct K as [->| ->]; auto. }
    rewrite !A by auto. cbn [map app]. apply itoa_N_dec.
Qed.
Lemma join_clean_back : forall sep l, clean (join sep l) -> Forall clean l.
Proof.
  intros sep. induction l as [|x l IH]; intros H; [constructor|]. destruct l as [|y l]; [constructor; [exact H|constructor]|].
  change (clean (x ++ sep ++ join sep (y :: l))) in H. apply clean_parts in H. destruct H as [H1 H2]. apply clean_parts in H2. constructor; [exact H1|apply IH; apply H2].
Qed.
Lemma opt_clean : forall b n rest, Forall clean (map attribute_text (opt (nonempty b) (n, Some b) ++ rest)) -> clean b /\ Forall clean (map attribute_text rest).
Proof.
  intros b n rest H. rewrite map_app in H. apply Forall_app in H. destruct H as [H H']. split; [|exact H'].
  destruct b as [|x b]; [apply clean_nil|]. cbn [nonempty opt map] in H. inversion H as [|? ? H1 _]; subst. unfold attribute_text in H1. cbn [fst snd] in H1.
  apply clean_parts in H1. destruct H1 as [_ H1]. apply clean_parts in H1. apply H1.
Qed.
Lemma cookie_clean_exact : forall n c, clean n -> (clean (set_cookie_text n c) <-> clean_cookie c).
Proof.
  intros n c Hn. split; [|apply cookie_clean; exact Hn]. intros H. unfold set_cookie_text in H. apply join_clean_back in H.
  inversion H as [|? ? H1 H2]; subst. apply clean_parts in H1. destruct H1 as [C1 H1]. apply clean_rest in H1. rename H1 into C2.
  unfold attributes in H2. apply opt_clean in H2. destruct H2 as [C3 H2]. apply opt_clean in H2. destruct H2 as [C4 H2].
  rewrite map_app in H2. apply Forall_app in H2. destruct H2 as [H3 H2].
  rewrite map_app in H2. apply Forall_app in H2. destruct H2 as [_ H2]. apply opt_clean in H2. destruct H2 as [C6 _].
  repeat split; try apply C1; try apply C2; try apply C3; try apply C4; try apply C6;
    (destruct (ck_expires c) as [e|]; [|intros []]; inversion H3 as [|? ? H4 _]; subst; unfold attribute_text in H4; cbn [fst snd] in H4;
     apply clean_parts in H4; destruct H4 as [_ H4]; apply clean_parts in H4; apply H4).
Qed.
Lemma sent_clean_exact : forall defs past f,
  Forall clean_field (sent_fields defs past f) <-> Renderable f /\ Forall clean_field (remaining (past ++ names f) defs).
Proof.
  intros defs past f. set (rem := remaining (past ++ names f) defs). split.
  - unfold sent_fields. fold rem. intros H. repeat (apply Forall_app in H; destruct H as [? H]).
    split; [|assumption]. split; [assumption|]. split; [|split].
    + match goal with X : Forall clean_field [(B "Content-Type", _)] |- _ => inversion X as [|? ? X1 _]; apply X1 end.
    + match goal with X : Forall clean_field (match f_te f with [] => [] | _ => _ end) |- _ => destruct (f_te f); [apply clean_nil|]; inversion X as [|? ? X1 _]; apply X1 end.
    + match goal with X : Forall clean_field (map _ (f_cookies f)) |- _ => rewrite Forall_map in X; eapply Forall_impl; [|exact X] end.
      intros c [_ Hc]. cbn [snd] in Hc. apply cookie_clean_exact in Hc; [exact Hc|apply cleanb_ok; reflexivity].
  - intros [(H1 & H2 & H3 & H4) Hd]. unfold sent_fields. fold rem. repeat (apply Forall_app; split).
    + exact H1.
    + exact Hd.
    + constructor; [|constructor]. split; [apply known_name; [reflexivity|discriminate|reflexivity]|exact H2].
    + destruct (f_te f) as [|x t]; [constructor|]. constructor; [|constructor]. split; [apply known_name; [reflexivity|discriminate|reflexivity]|exact H3].
    + apply Forall_forall. intros e He. apply in_map_iff in He. destruct He as (c & <- & Hc). split; [apply known_name; [reflexivity|discriminate|reflexivity]|].
      apply cookie_clean; [apply cleanb_ok; reflexivity|]. rewrite Forall_forall in H4. apply H4. exact Hc.
    + constructor; [|constructor]. split; [apply known_name; [reflexivity|discriminate|reflexivity]|apply itoa_clean].
Qed.

Theorem plain_exact : forall fbs defs past s p r f c res s' c' f',
  Served fbs defs past s -> distinct_names defs -> p <> PUnknown -> f_att f = None -> write_ok c ->
  write_response p r f s c = (res, s', c', f') ->
  let head := method_eqb (r_method r) HEAD in let rem := remaining (past ++ names f) defs in
  exists out, cl_out c' = cl_out c ++ [s_buff s ++ out] /\
    ((forall rest, read_response head (out ++ rest) =
        Some (Msg (version_of p) (f_code f) (sent_reason f) (map trimmed (sent_fields defs past f)) (if head then [] else f_body f), rest)) <->
     (100 <= f_code f <= 999)%N /\ Renderable f /\ Forall clean_field rem /\
     (head = false -> if bodyless (f_code f) then f_body f = [] else f_te f = [] /\ Forall (fun e => ~ framing_name (fst e)) (f_headers f ++ rem))).
Proof.
  intros fbs defs past s p r f c res s' c' f' Hs Hd Hp Ha Hw H head rem.
  destruct (plain_shape _ _ _ _ _ _ _ _ _ _ _ _ Hs Hd Hp Ha Hw H) as [E _]. eexists. split; [exact E|]. fold head.
  rewrite (framed_exact head p (f_code f) (sent_reason f) (sent_fields defs past f) (if head then [] else f_body f) (reason_clean f)).
  rewrite sent_clean_exact. fold rem. destruct head; cbn [orb].
  - split; [intros (A & (B1 & B2) & _); repeat split; try assumption; try apply A; try apply B1; discriminate|].
    intros (A & B1 & B2 & _). repeat split; try assumption; try apply A; try apply B1; discriminate.
  - destruct (bodyless (f_code f)).
    + split; [intros (A & (B1 & B2) & K & _); auto|]. intros (A & B1 & B2 & K). split; [exact A|]. split; [auto|]. split; [auto|discriminate].
    + rewrite sent_length_exact. fold rem. split; [intros (A & (B1 & B2) & _ & K); destruct (K eq_refl) as (K1 & K2 & _); auto|].
      intros (A & B1 & B2 & K). destruct (K eq_refl) as (K1 & K2). split; [exact A|]. split; [auto|]. split; [discriminate|auto].
Qed.

(* the lines a reader sees *)
Lemma lines_exact : forall p c reason fs body, clean reason ->
  ((forall rest, let l := response_text (version_of p) (itoa_N c) reason fs body ++ rest in
      cut_lines (S (List.length l)) l = Some ((version_of p ++ [SP] ++ itoa_N c ++ [SP] ++ reason) :: map (fun e => fst e ++ B ": " ++ snd e) fs, body ++ rest)) <->
   Forall (fun e => clean (fst e) /\ clean (snd e)) fs).
Proof.
  intros p c reason fs body Hr. split.
  - intros H. specialize (H []). cbv zeta in H. apply cut_lines_out in H. inversion H as [|? ? _ H2]; subst. rewrite Forall_map in H2.
    eapply Forall_impl; [|exact H2]. intros e C. apply clean_parts in C. destruct C as [C1 C2]. apply clean_rest in C2. apply clean_rest in C2. auto.
  - intros H rest. cbv zeta. rewrite response_lines. apply cut_lines_response.
    + assert (K : clean [SP]) by (apply cleanb_ok; reflexivity). apply clean_app; [apply version_clean|]. apply clean_app; [exact K|].
      apply clean_app; [pose proof (proj1 (itoa_clean (Z.of_N c))) as I; unfold itoa in I; replace (Z.of_N c <? 0)%Z with false in I by (symmetry; apply Z.ltb_ge; lia); rewrite N2Z.id in I; exact I|]. apply clean_app; assumption.
    + destruct (version_of p); discriminate.
    + apply Forall_map. eapply Forall_impl; [|exact H]. intros e [C1 C2]. split.
      * apply clean_app; [exact C1|]. apply clean_app; [apply cleanb_ok; reflexivity|exact C2].
      * destruct (fst e); discriminate.
Qed.
Definition unbroken (e : entry) : Prop := clean (fst e) /\ clean (snd e).
Lemma unbroken_exact : forall defs past f,
  Forall unbroken (sent_fields defs past f) <->
  Forall unbroken (f_headers f) /\ Forall unbroken (remaining (past ++ names f) defs) /\ clean (f_ctype f) /\ clean (f_te f) /\ Forall clean_cookie (f_cookies f).
Proof.
  intros defs past f. set (rem := remaining (past ++ names f) defs).
  assert (K : forall n v, cleanb n = true -> (unbroken (n, v) <-> clean v)).
  { intros n v Hn. unfold unbroken. cbn [fst snd]. split; [intros [_ X]; exact X|]. intros X. split; [apply cleanb_ok; exact Hn|exact X]. }
  unfold sent_fields. fold rem. rewrite !Forall_app.
  assert (T : Forall unbroken (match f_te f with [] => [] | t => [(B "Transfer-Encoding", t)] end) <-> clean (f_te f)).
  { destruct (f_te f) as [|x t]; [split; [intros _; apply clean_nil|constructor]|]. rewrite <- (K (B "Transfer-Encoding")) by reflexivity.
    split; [intros X; inversion X; assumption|]. intros X. constructor; [exact X|constructor]. }
  assert (C : Forall unbroken (map (fun c => (B "Set-Cookie", set_cookie_text (B "MaxAge") c)) (f_cookies f)) <-> Forall clean_cookie (f_cookies f)).
  { rewrite Forall_map. split; intros X; (eapply Forall_impl; [|exact X]); intros c; cbv beta; rewrite K by reflexivity; rewrite cookie_clean_exact by (apply cleanb_ok; reflexivity); auto. }
  assert (Y : Forall unbroken [(B "Content-Type", f_ctype f)] <-> clean (f_ctype f)).
  { rewrite <- (K (B "Content-Type")) by reflexivity. split; [intros X; inversion X; assumption|]. intros X. constructor; [exact X|constructor]. }
  assert (Z : Forall unbroken [(B "Content-Length", itoa (len (f_body f)))]).
  { constructor; [|constructor]. apply K; [reflexivity|apply itoa_clean]. }
  rewrite T, C, Y. tauto.
Qed.
Theorem plain_lines : forall fbs defs past s p r f c res s' c' f',
  Served fbs defs past s -> distinct_names defs -> p <> PUnknown -> f_att f = None -> write_ok c ->
  write_response p r f s c = (res, s', c', f') ->
  exists out body, cl_out c' = cl_out c ++ [s_buff s ++ out] /\ body = (if method_eqb (r_method r) HEAD then [] else f_body f) /\
    ((forall rest, cut_lines (S (List.length (out ++ rest))) (out ++ rest) =
        Some ((version_of p ++ [SP] ++ itoa_N (f_code f) ++ [SP] ++ sent_reason f) :: map (fun e => fst e ++ B ": " ++ snd e) (sent_fields defs past f), body ++ rest)) <->
     Forall (fun e => clean (fst e) /\ clean (snd e)) (f_headers f ++ remaining (past ++ names f) defs) /\
     clean (f_ctype f) /\ clean (f_te f) /\ Forall clean_cookie (f_cookies f)).
Proof.
  intros fbs defs past s p r f c res s' c' f' Hs Hd Hp Ha Hw H.
  destruct (plain_shape _ _ _ _ _ _ _ _ _ _ _ _ Hs Hd Hp Ha Hw H) as [E _]. eexists _, _. split; [exact E|]. split; [reflexivity|].
  rewrite (lines_exact p (f_code f) (sent_reason f) (sent_fields defs past f) _ (reason_clean f)).
  rewrite Forall_app. pose proof (unbroken_exact defs past f) as U. unfold unbroken in U. tauto.
Qed.
