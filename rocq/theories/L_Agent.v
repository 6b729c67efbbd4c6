(* Lemmas: cookies on their way to the client and back. *)
From Coq Require Import List Lia ZArith Permutation.
From Verif Require Import M_Base M_KeyValue M_Response M_Time M_CookieJar S_KeyValue S_Response S_Values S_Agent L_Base L_Time L_Time2
  L_Response2 L_ResponseProps L_Values.
Import ListNotations.
Open Scope Z_scope.

(* ---- attributes ---- *)
Lemma filter_attr : forall n b k v, filter (is_attr n) (opt b (k, v)) = if same_keyb k n then opt b (k, v) else [].
Proof. intros n b k v. destruct b; cbn [opt filter]; unfold is_attr; cbn [fst]; destruct (same_keyb k n); reflexivity. Qed.
Lemma exists_attr : forall n b k v, existsb (is_attr n) (opt b (k, v)) = b && same_keyb k n.
Proof. intros n b k v. destruct b; cbn [opt existsb]; unfold is_attr; cbn [fst]; [apply Bool.orb_false_r|reflexivity]. Qed.
Definition the_expires (c : cookie) : list (bytes * option bytes) := match ck_expires c with Some e => [(B "Expires", Some e)] | None => [] end.
Lemma expires_opt : forall c, the_expires c = opt (match ck_expires c with Some _ => true | None => false end) (B "Expires", Some (match ck_expires c with Some e => e | None => [] end)).
Proof. intros c. unfold the_expires. destruct (ck_expires c); reflexivity. Qed.
Ltac keys := repeat match goal with |- context [same_keyb ?a ?b] => let v := eval vm_compute in (same_keyb a b) in change (same_keyb a b) with v end.
Lemma attributes_opt : forall m c, attributes m c =
  opt (nonempty (ck_path c)) (B "Path", Some (ck_path c)) ++
  opt (nonempty (ck_domain c)) (B "Domain", Some (ck_domain c)) ++
  opt (match ck_expires c with Some _ => true | None => false end) (B "Expires", Some (match ck_expires c with Some e => e | None => [] end)) ++
  opt (negb (ck_maxage c =? 0)) (m, Some (itoa (Z.max 0 (ck_maxage c)))) ++
  opt (nonempty (ck_samesite c)) (B "SameSite", Some (ck_samesite c)) ++
  opt (ck_secure c) (B "Secure", None) ++ opt (ck_httponly c) (B "HttpOnly", None).
Proof. intros m c. rewrite <- expires_opt. reflexivity. Qed.
Lemma no_max_age : forall c, max_age (attributes (B "MaxAge") c) = None.
Proof. intros c. unfold max_age. rewrite attributes_opt, !filter_app, !filter_attr. keys. reflexivity. Qed.
Lemma only_expires : forall c, filter (is_attr (B "Expires")) (attributes (B "MaxAge") c) = the_expires c.
Proof. intros c. rewrite attributes_opt, !filter_app, !filter_attr. keys. cbn [app]. rewrite app_nil_r. symmetry. apply expires_opt. Qed.
Lemma domain_read : forall c, (forall r, ck_domain c <> x2e :: r) -> domain_of (attributes (B "MaxAge") c) = map lower (ck_domain c).
Proof.
  intros c H. unfold domain_of. rewrite attributes_opt, !filter_app, !filter_attr. keys. cbn [app]. rewrite app_nil_r.
  destruct (ck_domain c) as [|x d]; [reflexivity|]. cbn [nonempty opt map attr_value snd filter last_of rev app].
  destruct (Byte.eqb x x2e) eqn:E; [|reflexivity]. apply beq_eq in E. subst x. destruct (H d eq_refl).
Qed.
Lemma path_read : forall dp c, (ck_path c = [] \/ exists r, ck_path c = x2f :: r) ->
  path_of dp (attributes (B "MaxAge") c) = match ck_path c with [] => dp | p => p end.
Proof.
  intros dp c H. unfold path_of. rewrite attributes_opt, !filter_app, !filter_attr. keys. cbn [app]. rewrite app_nil_r.
  destruct H as [->|(r & ->)]; reflexivity.
Qed.
Lemma secure_read : forall c, existsb (is_attr (B "Secure")) (attributes (B "MaxAge") c) = ck_secure c.
Proof. intros c. rewrite attributes_opt, !existsb_app, !exists_attr. keys. rewrite !Bool.andb_false_r, !Bool.andb_true_r. cbn [orb]. apply Bool.orb_false_r. Qed.
Lemma httponly_read : forall c, existsb (is_attr (B "HttpOnly")) (attributes (B "MaxAge") c) = ck_httponly c.
Proof. intros c. rewrite attributes_opt, !existsb_app, !exists_attr. keys. rewrite !Bool.andb_false_r, !Bool.andb_true_r. reflexivity. Qed.
(* ---- how long ---- *)
Lemma lasts_session : forall now as_ l, max_age as_ = None -> filter (is_attr (B "Expires")) as_ = [] -> (Lasts now as_ l <-> l = Session).
Proof.
  intros now as_ l HM HF.
  assert (N : forall a, In a as_ -> is_attr (B "Expires") a = true -> False).
  { intros a H1 H2. assert (H : In a (filter (is_attr (B "Expires")) as_)) by (apply filter_In; auto). rewrite HF in H. exact H. }
  split.
  - intros H. destruct H as [d H|pre a post z H1 H2 H3 H4 H5|H1 H2]; [congruence| |reflexivity].
    destruct (N a); [rewrite H2; apply in_elt|exact H3].
  - intros ->. apply La_session; [exact HM|]. intros a z H1 H2. destruct (N a H1 H2).
Qed.
Lemma lasts_until : forall now as_ l a z, max_age as_ = None -> filter (is_attr (B "Expires")) as_ = [a] ->
  (forall z', NamesInstant (attr_value a) z' <-> z' = z) -> (Lasts now as_ l <-> l = Until z).
Proof.
  intros now as_ l a z HM HF HZ.
  assert (Ha : In a as_ /\ is_attr (B "Expires") a = true) by (apply filter_In; rewrite HF; left; reflexivity).
  split.
  - intros H. destruct H as [d H|pre a' post z' H1 H2 H3 H4 H5|H1 H2]; [congruence| |].
    + assert (E : In a' (filter (is_attr (B "Expires")) as_)) by (apply filter_In; split; [rewrite H2; apply in_elt|exact H3]).
      rewrite HF in E. destruct E as [<-|[]]. apply HZ in H4. subst z'. reflexivity.
    + exfalso. apply (H2 a z); [apply Ha|apply Ha|]. apply HZ. reflexivity.
  - intros ->. destruct (in_split a as_ (proj1 Ha)) as (pre & post & E). apply (La_expires now as_ pre a post z HM E (proj2 Ha)); [apply HZ; reflexivity|].
    intros b z' Hb Hx. exfalso. rewrite E, filter_app in HF. cbn [filter] in HF. rewrite (proj2 Ha) in HF.
    assert (Hp : In b (filter (is_attr (B "Expires")) post)) by (apply filter_In; auto).
    destruct (filter (is_attr (B "Expires")) pre) as [|u us]; cbn [app] in HF.
    + injection HF as HF. rewrite HF in Hp. exact Hp.
    + injection HF as _ HF. destruct us; discriminate HF.
Qed.
(* ---- one line ---- *)
Theorem line_read : forall now host dp c t s, PlainCookie c -> ck_name c <> [] -> ck_expires c = expires_of t ->
  (is_zero t = true \/ -11644473600 <= t_unix t < 253402300800) ->
  (ck_path c = [] \/ exists r, ck_path c = x2f :: r) -> (forall r, ck_domain c <> x2e :: r) ->
  (ck_domain c = [] \/ domain_match host (map lower (ck_domain c)) = true) ->
  (Reads now host dp (set_cookie_text (B "MaxAge") c) s <-> s = meant now dp (no_age c) (when t)).
Proof.
  intros now host dp c t s HC Hn He Ht Hp Hd Hh.
  pose proof (cookie_read_all c HC) as HR. pose proof (domain_read c Hd) as ED. pose proof (path_read dp c Hp) as EP.
  assert (HL : forall l, Lasts now (attributes (B "MaxAge") c) l <-> l = match when t with Some z => Until z | None => Session end).
  { intros l. pose proof (only_expires c) as HO. unfold the_expires in HO. rewrite He in HO. unfold expires_of, when in *. destruct (is_zero t) eqn:EZ.
    - apply lasts_session; [apply no_max_age|exact HO].
    - destruct Ht as [Ht|Ht]; [congruence|]. eapply lasts_until; [apply no_max_age|exact HO|]. cbn [attr_value snd]. apply expiry_read. exact Ht. }
  split.
  - intros H. destruct H as [n v as_ l H1 H2 H3 H4]. rewrite HR in H1. injection H1 as <- <- <-. apply HL in H4. subst l.
    rewrite ED, EP, secure_read, httponly_read. reflexivity.
  - intros ->. unfold meant, no_age. cbn [cookie_set_maxage ck_name ck_value ck_path ck_domain ck_maxage ck_secure ck_httponly].
    change (0 <? 0) with false. cbn iota.
    rewrite <- ED, <- EP, <- (secure_read c), <- (httponly_read c). apply Reads_cookie with (n := ck_name c) (v := ck_value c); [exact HR|exact Hn| |apply HL; reflexivity].
    rewrite ED. destruct Hh as [->|Hh]; [left; reflexivity|right; exact Hh].
Qed.

(* ---- the text of a date ---- *)
Lemma trim_ends : forall l, match l with x :: _ => is_ows x = false | [] => False end -> match rev l with x :: _ => is_ows x = false | [] => False end -> trim l = l.
Proof.
  intros l H1 H2. unfold trim. replace (ltrim l) with l by (destruct l as [|x l]; [destruct H1|cbn [ltrim]; rewrite H1; reflexivity]).
  replace (ltrim (rev l)) with (rev l) by (destruct (rev l) as [|x m]; [destruct H2|cbn [ltrim]; rewrite H2; reflexivity]). apply rev_involutive.
Qed.
Lemma whole_no_semicolon : forall w, forallb (fun b => negb (delimiter b)) w = true -> ~ In x3b w.
Proof. intros w H Hi. rewrite forallb_forall in H. specialize (H _ Hi). vm_compute in H. discriminate. Qed.
Lemma date_plain : forall t, -11644473600 <= t_unix t < 253402300800 -> plain_text (rfc1123 t).
Proof.
  intros t Ht. destruct (rfc1123_text t) as (wd & d & m & y & h & mi & s & E & H1 & H2 & H3 & H4 & H5 & H6 & _ & H9 & H10); [unfold in_range, to_abs; lia|].
  specialize (H9 ltac:(lia)). specialize (H10 ltac:(lia)). rewrite E. unfold date_text.
  assert (N2 : forall x, 0 <= x < 100 -> ~ In x3b (append_int x 2)) by (intros x Hx; apply whole_no_semicolon, digits_whole; apply (num_spec 2 x (num2 x Hx))).
  assert (N4 : ~ In x3b (append_int y 4)) by (apply whole_no_semicolon, digits_whole; apply (num_spec 4 y); apply num4; lia).
  assert (Nw : ~ In x3b (nth wd day_names []) /\ match nth wd day_names [] with x :: _ => is_ows x = false | [] => False end).
  { destruct wd as [|[|[|[|[|[|[|wd]]]]]]]; [split; [apply whole_no_semicolon; reflexivity|reflexivity]..|lia]. }
  assert (Nm : ~ In x3b (nth (Z.to_nat (m - 1)) month_names [])).
  { assert (K : (Z.to_nat (m - 1) < 12)%nat) by lia. revert K. generalize (Z.to_nat (m - 1)). intros k K. apply whole_no_semicolon.
    destruct k as [|[|[|[|[|[|[|[|[|[|[|[|k]]]]]]]]]]]]; [reflexivity..|lia]. }
  split.
  - rewrite !in_app_iff. intros H. repeat (destruct H as [H|H]; [solve [exact (proj1 Nw H)|exact (Nm H)|exact (N4 H)|refine (N2 _ _ H); lia|cbn in H; intuition discriminate]|]).
    cbn in H. intuition discriminate.
  - apply trim_ends.
    + destruct Nw as [_ Nw]. destruct (nth wd day_names []); [destruct Nw|exact Nw].
    + rewrite !app_assoc, rev_app_distr. reflexivity.
Qed.
Lemma plain_nil : plain_text [].
Proof. split; [intros []|reflexivity]. Qed.
Lemma settable_plain : forall host c t, Settable host c t -> PlainCookie c.
Proof.
  intros host c t (S1 & S2 & S3 & S4 & S5 & S6 & S7 & S8 & S9 & S10 & S11 & S12). unfold PlainCookie. repeat (split; [assumption|]). split; [|exact S5].
  rewrite S11. unfold expires_of. destruct (is_zero t) eqn:E; [apply plain_nil|]. destruct S12 as [S12|S12]; [congruence|]. apply date_plain. exact S12.
Qed.
Theorem settable_read : forall now host dp c t s, Settable host c t ->
  (Reads now host dp (set_cookie_text (B "MaxAge") c) s <-> s = meant now dp (no_age c) (when t)).
Proof.
  intros now host dp c t s HS. pose proof (settable_plain host c t HS) as HP. destruct HS as (S1 & S2 & S3 & S4 & S5 & S6 & S7 & S8 & S9 & S10 & S11 & S12).
  apply (line_read now host dp c t s); assumption.
Qed.
(* ---- several ---- *)
Lemma no_age_same : forall c, ck_maxage c = 0 -> no_age c = c.
Proof. intros c H. unfold no_age, cookie_set_maxage. rewrite <- H. destruct c. reflexivity. Qed.
Theorem received : forall now host dp cts j j', Forall (fun ct => Settable host (fst ct) (snd ct) /\ ck_maxage (fst ct) = 0) cts ->
  (Receives now host dp (map (fun ct => set_cookie_text (B "MaxAge") (fst ct)) cts) j j' <-> j' = kept_after now dp cts j).
Proof.
  intros now host dp cts. induction cts as [|[c t] cts IH]; intros j j' HF; cbn [map fst].
  - split; [intros H; inversion H; reflexivity|intros ->; apply Rc_none].
  - inversion HF as [|? ? [H1 H2] H3]; subst. cbn [fst snd] in *. pose proof (fun s => settable_read now host dp c t s H1) as HR. rewrite (no_age_same c H2) in HR.
    unfold kept_after. cbn [fold_left fst snd]. split.
    + intros H. inversion H as [|line lines s j0 j1 R1 R2|line lines j0 j1 R1 R2]; subst.
      * apply HR in R1. subst s. apply (IH _ _ H3). exact R2.
      * exfalso. apply (R1 (meant now dp c (when t))). apply HR. reflexivity.
    + intros ->. apply Rc_cookie with (s := meant now dp c (when t)); [apply HR; reflexivity|]. apply (IH _ _ H3). reflexivity.
Qed.
(* ---- what is kept ---- *)
Lemma bytes_eqb_iff : forall a b, beqb a b = true <-> a = b.
Proof. intros a b. apply beqb_eq. Qed.
Lemma same_cookie_iff : forall a b, same_cookie a b = true <-> (sd_name a, sd_domain a, sd_path a) = (sd_name b, sd_domain b, sd_path b).
Proof.
  intros a b. unfold same_cookie. rewrite !Bool.andb_true_iff, !bytes_eqb_iff. split; [intros ((-> & ->) & ->); reflexivity|]. intros H. injection H as -> -> ->. auto.
Qed.
Lemma same_cookie_false : forall a b, same_cookie a b = false <-> (sd_name a, sd_domain a, sd_path a) <> (sd_name b, sd_domain b, sd_path b).
Proof. intros a b. rewrite <- same_cookie_iff. destruct (same_cookie a b); split; congruence. Qed.
Lemma keep_in : forall s j, NoTwins j -> NoTwins (keep s j) /\ forall e, In e (keep s j) <-> e = s \/ (In e j /\ same_cookie e s = false).
Proof.
  intros s j H. induction H as [|x j Hx Hj IH]; cbn [keep].
  - split; [constructor; [constructor|constructor]|]. intros e. cbn. split; [intros [->|[]]; auto|intros [->|([] & _)]; auto].
  - destruct IH as [I1 I2]. destruct (same_cookie x s) eqn:E.
    + apply same_cookie_iff in E. split.
      * constructor; [|exact Hj]. eapply Forall_impl; [|exact Hx]. cbn. intros b Hb. apply same_cookie_false. apply same_cookie_false in Hb. congruence.
      * intros e. cbn [In]. split.
        -- intros [<-|He]; [auto|]. right. split; [auto|]. rewrite Forall_forall in Hx. specialize (Hx e He). apply same_cookie_false in Hx. apply same_cookie_false. congruence.
        -- intros [->|([<-|He] & Hs)]; [auto| |auto]. apply same_cookie_false in Hs. destruct (Hs E).
    + split.
      * constructor; [|exact I1]. apply Forall_forall. intros b Hb. apply I2 in Hb. rewrite Forall_forall in Hx.
        destruct Hb as [->|(Hb & _)]; [exact E|apply Hx; exact Hb].
      * intros e. cbn [In]. rewrite I2. split.
        -- intros [<-|[->|(He & Hs)]]; auto.
        -- intros [->|([<-|He] & Hs)]; auto.
Qed.
Theorem kept_in : forall now dp cts j, NoTwins j -> NoTwins (kept_after now dp cts j) /\
  forall e, In e (kept_after now dp cts j) <->
    (exists pre ct post, cts = pre ++ ct :: post /\ e = meant now dp (fst ct) (when (snd ct)) /\
       forall ct', In ct' post -> same_cookie e (meant now dp (fst ct') (when (snd ct'))) = false) \/
    (In e j /\ forall ct, In ct cts -> same_cookie e (meant now dp (fst ct) (when (snd ct))) = false).
Proof.
  intros now dp cts. induction cts as [|ct cts IH]; intros j HJ; unfold kept_after; cbn [fold_left].
  - split; [exact HJ|]. intros e. split.
    + intros H. right. split; [exact H|]. intros ct [].
    + intros [(pre & ct & post & E & _)|(H & _)]; [destruct pre; discriminate E|exact H].
  - destruct (keep_in (meant now dp (fst ct) (when (snd ct))) j HJ) as [K1 K2]. destruct (IH _ K1) as [I1 I2]. split; [exact I1|].
    intros e. fold (kept_after now dp cts (keep (meant now dp (fst ct) (when (snd ct))) j)). rewrite I2, K2. split.
    + intros [(pre & x & post & E & H1 & H2)|([->|(He & Hs)] & H)].
      * left. exists (ct :: pre), x, post. split; [rewrite E; reflexivity|auto].
      * left. exists [], ct, cts. auto.
      * right. split; [exact He|]. intros x [<-|Hx]; [exact Hs|apply H; exact Hx].
    + intros [(pre & x & post & E & H1 & H2)|(He & H)].
      * destruct pre as [|p pre]; cbn [app] in E; injection E as <- E.
        -- subst post. right. split; [left; exact H1|exact H2].
        -- left. exists pre, x, post. auto.
      * right. split; [right; split; [exact He|apply H; left; reflexivity]|]. intros x Hx. apply H. right. exact Hx.
Qed.
(* ---- and back ---- *)
Definition pair_of (s : stored) : entry := (sd_name s, sd_value s).
Lemma ltrim_length : forall l, (List.length (ltrim l) <= List.length l)%nat.
Proof. induction l as [|x l IH]; [apply le_n|]. cbn [ltrim]. destruct (is_ows x); cbn [List.length]; lia. Qed.
Lemma plain_no_space : forall l r, plain_text l -> l <> SP :: r.
Proof.
  intros l r [_ H] ->. rewrite trim_sp in H. apply (f_equal (@List.length byte)) in H. unfold trim in H. rewrite rev_length in H.
  pose proof (ltrim_length (rev (ltrim r))) as A. rewrite rev_length in A. pose proof (ltrim_length r). cbn [List.length] in H. lia.
Qed.
Lemma settable_good : forall host c t, Settable host c t -> good_cookie (ck_name c, ck_value c).
Proof.
  intros host c t (S1 & S2 & S3 & S4 & _). split; [exact S3|]. split; [exact S2|]. split; [apply S1|]. split; [intros r; apply (plain_no_space _ r S1)|apply S4].
Qed.
Lemma kept_good : forall now host dp cts j, Forall (fun ct => Settable host (fst ct) (snd ct)) cts -> NoTwins j -> Forall good_cookie (map pair_of j) ->
  Forall good_cookie (map pair_of (kept_after now dp cts j)).
Proof.
  intros now host dp cts j HF HJ HG. apply Forall_forall. intros e He. apply in_map_iff in He. destruct He as (s & <- & Hs).
  apply (kept_in now dp cts j HJ) in Hs. destruct Hs as [(pre & ct & post & E & -> & _)|(Hs & _)].
  - unfold pair_of, meant. cbn [sd_name sd_value]. rewrite Forall_forall in HF. apply (settable_good host _ (snd ct)). apply HF. rewrite E. apply in_elt.
  - rewrite Forall_forall in HG. apply HG. apply in_map. exact Hs.
Qed.
Lemma sends_good : forall now host path https j sent, Forall good_cookie (map pair_of j) -> Sends now host path https j sent -> Forall good_cookie sent.
Proof.
  intros now host path https j sent HG HS. apply Forall_forall. intros e He. apply (Permutation_in e HS) in He. apply in_map_iff in He. destruct He as (s & <- & Hs).
  apply filter_In in Hs. rewrite Forall_forall in HG. apply (HG (pair_of s)). apply in_map. apply Hs.
Qed.
Theorem comes_back : forall now host dp cts j j', Forall (fun ct => Settable host (fst ct) (snd ct) /\ ck_maxage (fst ct) = 0) cts ->
  NoTwins j -> Forall good_cookie (map pair_of j) ->
  Receives now host dp (map (fun ct => set_cookie_text (B "MaxAge") (fst ct)) cts) j j' ->
  j' = kept_after now dp cts j /\ NoTwins j' /\ Forall good_cookie (map pair_of j') /\
  forall later path https sent s, Sends later host path https j' sent ->
    all_values (kv_pairs s) (B "cookie") = [cookie_text sent] -> request_cookies s = Some sent.
Proof.
  intros now host dp cts j j' HF HJ HG HR. apply (received now host dp cts j j' HF) in HR.
  assert (HF' : Forall (fun ct => Settable host (fst ct) (snd ct)) cts) by (eapply Forall_impl; [|exact HF]; intros ct [H _]; exact H).
  split; [exact HR|]. subst j'. split; [apply (kept_in now dp cts j HJ)|]. pose proof (kept_good now host dp cts j HF' HJ HG) as HG'. split; [exact HG'|].
  intros later path https sent s HS Hv. rewrite <- (app_nil_r sent). change (sent ++ []) with (concat [sent]). apply request_cookies_spec; [|exact Hv].
  constructor; [apply (sends_good later host path https _ sent HG' HS)|constructor].
Qed.
