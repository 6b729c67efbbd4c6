From Verif Require Import M_Base L_Base M_KeyValue S_KeyValue L_KeyValue M_Coding M_Config M_CookieJar M_HeaderValue
  M_Address M_Escape S_Values S_Head.
Local Arguments cut : simpl never.

(* ---- cookies ---- *)
Lemma cookie_text_length : forall l, Forall good_cookie l -> (List.length l <= List.length (cookie_text l))%nat.
Proof.
  induction l as [|[k v] l IH]; intros H; [simpl; lia|]. inversion H as [|? ? (G & _) H']; subst.
  specialize (IH H'). cbn [fst] in G. destruct k as [|k0 k]; [congruence|].
  destruct l as [|e l]; cbn [cookie_text app List.length] in *; [lia|].
  destruct e as [k1 v1]. rewrite !app_length. cbn [List.length]. rewrite app_length. cbn [List.length] in *. lia.
Qed.
Lemma cookie_text_cons : forall k v e l, cookie_text ((k, v) :: e :: l) = k ++ x3d :: v ++ x3b :: SP :: cookie_text (e :: l).
Proof. reflexivity. Qed.
Lemma cookie_head : forall l, Forall good_cookie l -> strip_space (SP :: cookie_text l) = cookie_text l.
Proof. reflexivity. Qed.

Lemma cookie_parse_spec : forall l fuel acc, Forall good_cookie l -> (List.length l < fuel)%nat ->
  cookie_parse_aux fuel (cookie_text l) acc = (acc ++ l, false).
Proof.
  induction l as [|[k v] l IH]; intros fuel acc H Hf; destruct fuel as [|fuel]; cbn [List.length] in Hf; try lia.
  - cbn. rewrite app_nil_r. reflexivity.
  - inversion H as [|? ? (G1 & G2 & G3 & G4 & G5) H']; subst. cbn [fst snd] in *.
    destruct l as [|[k1 v1] l].
    + cbn [cookie_text cookie_parse_aux]. destruct (k ++ x3d :: v) eqn:E; [destruct k; discriminate|]. rewrite <- E.
      rewrite cut_app by assumption. destruct k as [|k0 k]; [congruence|].
      assert (C : cut v x3b = None) by (apply cut_none; assumption). rewrite C.
      destruct fuel as [|fuel]; [lia|]. reflexivity.
    + rewrite cookie_text_cons.
      set (rest := cookie_text ((k1, v1) :: l)) in *.
      cbn [cookie_parse_aux]. destruct (k ++ x3d :: v ++ x3b :: SP :: rest) eqn:E; [destruct k; discriminate|]. rewrite <- E.
      rewrite cut_app by assumption. destruct k as [|k0 k]; [congruence|].
      rewrite cut_app by assumption. cbn [strip_space SP].
      rewrite IH; [rewrite <- app_assoc; reflexivity|assumption|cbn [List.length] in *; lia].
Qed.
Lemma cookie_roundtrip : forall l, Forall good_cookie l -> cookie_parse (cookie_text l) = (l, false).
Proof.
  intros l H. unfold cookie_parse. rewrite cookie_parse_spec; [reflexivity|exact H|].
  pose proof (cookie_text_length l H). lia.
Qed.
Lemma cookie_no_eq : forall d, d <> [] -> ~ In x3d d -> cookie_parse d = ([], true).
Proof.
  intros d H1 H2. unfold cookie_parse. cbn [cookie_parse_aux]. destruct d as [|c d]; [congruence|].
  apply cut_none in H2. rewrite H2. reflexivity.
Qed.
Lemma cookies_values : forall ls acc, Forall (Forall good_cookie) ls ->
  cookies_of_values (map cookie_text ls) acc = Some (acc ++ concat ls).
Proof.
  induction ls as [|l ls IH]; intros acc H; cbn [map cookies_of_values concat]; [rewrite app_nil_r; reflexivity|].
  inversion H as [|? ? Hl Hls]; subst. rewrite cookie_roundtrip by exact Hl. rewrite IH by exact Hls.
  rewrite <- app_assoc. reflexivity.
Qed.
Lemma request_cookies_spec : forall s ls, Forall (Forall good_cookie) ls ->
  all_values (kv_pairs s) (B "cookie") = map cookie_text ls -> request_cookies s = Some (concat ls).
Proof.
  intros s ls H E. unfold request_cookies, kv_values_of. cbn [snd]. rewrite pairs_values_spec. cbn [app].
  rewrite E. destruct ls as [|l ls]; [reflexivity|].
  change (match map cookie_text (l :: ls) with [] => None | _ :: _ => Some (map cookie_text (l :: ls)) end)
    with (Some (map cookie_text (l :: ls))). cbv iota. rewrite cookies_values by exact H. reflexivity.
Qed.

(* ---- header parameters ---- *)
Lemma value_of_spec : forall v ps, ~ In x3b v -> value_of (header_text v ps) = v.
Proof.
  intros v ps H. unfold value_of, header_text. destruct ps as [|[p x] ps]; cbn [params_text].
  - rewrite app_nil_r. apply cut_none in H. rewrite H. reflexivity.
  - rewrite cut_app by exact H. reflexivity.
Qed.
Lemma has_prefix_param : forall p x key rest, ~ In x3d p -> ~ In x3d key ->
  has_prefix (x3b :: p ++ x3d :: x ++ rest) (x3b :: key ++ [x3d]) = true <-> p = key.
Proof.
  intros p x key rest Hp Hk. cbn [has_prefix]. rewrite beq_refl. cbn [andb]. rewrite has_prefix_iff. split.
  - intros (r & E). rewrite <- app_assoc in E. cbn [app] in E.
    pose proof (cut_app p x3d (x ++ rest) Hp) as C1. pose proof (cut_app key x3d r Hk) as C2.
    rewrite E in C1. congruence.
  - intros ->. exists (x ++ rest). rewrite <- app_assoc. reflexivity.
Qed.
(* no occurrence of ";..." inside text free of semicolons *)
Lemma index_sub_skip : forall v sub' s, ~ In x3b v ->
  index_sub (v ++ s) (x3b :: sub') = option_map (fun i => (List.length v + i)%nat) (index_sub s (x3b :: sub')).
Proof.
  induction v as [|c v IH]; intros sub' s H; cbn [app List.length].
  - destruct (index_sub s (x3b :: sub')); reflexivity.
  - rewrite index_sub_eq. 
    assert (E : has_prefix (c :: v ++ s) (x3b :: sub') = false).
    { cbn [has_prefix]. destruct (Byte.eqb c x3b) eqn:E; [|reflexivity]. apply beq_eq in E. exfalso. apply H. left. exact E. }
    rewrite E, IH by (intro; apply H; right; assumption).
    destruct (index_sub s (x3b :: sub')); reflexivity.
Qed.
Lemma skipn_app_len : forall (A : Type) (a b : list A) n, skipn (List.length a + n) (a ++ b) = skipn n b.
Proof. intros. rewrite skipn_app. rewrite skipn_all2 by lia. cbn [app]. f_equal. lia. Qed.

Lemma get_param_params : forall key or ps, ~ In x3d key -> Forall good_param ps ->
  get_param (params_text ps) (x3b :: key ++ [x3d]) or = param_value ps key or.
Proof.
  intros key or ps Hk H. induction H as [|[p x] ps (G1 & G2 & G3) H IH]; cbn [params_text param_value].
  - unfold get_param. rewrite index_sub_eq. reflexivity.
  - cbn [fst snd] in *. unfold get_param. rewrite index_sub_eq.
    destruct (list_eq_dec Byte.byte_eq_dec p key) as [->|Hne].
    + assert (E : has_prefix (x3b :: key ++ x3d :: x ++ params_text ps) (x3b :: key ++ [x3d]) = true)
        by (apply has_prefix_param; auto). rewrite E.
      assert (S : skipn (0 + List.length (x3b :: key ++ [x3d])) (x3b :: key ++ x3d :: x ++ params_text ps) = x ++ params_text ps).
      { cbn [Nat.add List.length skipn]. rewrite app_length. rewrite skipn_app_len. reflexivity. }
      rewrite S. apply value_of_spec with (ps := ps). exact G3.
    + assert (E : has_prefix (x3b :: p ++ x3d :: x ++ params_text ps) (x3b :: key ++ [x3d]) = false).
      { destruct (has_prefix _ _) eqn:E; [|reflexivity]. apply has_prefix_param in E; auto. congruence. }
      rewrite E.
      replace (p ++ x3d :: x ++ params_text ps) with ((p ++ x3d :: x) ++ params_text ps)
        by (rewrite <- app_assoc; reflexivity).
      rewrite index_sub_skip.
      * unfold get_param in IH. destruct (index_sub (params_text ps) (x3b :: key ++ [x3d])) as [i|]; cbn [option_map].
        -- cbn [Nat.add skipn]. rewrite <- Nat.add_assoc, skipn_app_len. exact IH.
        -- exact IH.
      * intro Hi. apply in_app_or in Hi. destruct Hi as [Hi|[Hi|Hi]]; [tauto|discriminate|tauto].
Qed.
Lemma param_of_or_spec : forall v ps key or, ~ In x3b v -> ~ In x3d key -> Forall good_param ps ->
  param_of_or (header_text v ps) key or = param_value ps key or.
Proof.
  intros v ps key or Hv Hk H. unfold param_of_or, header_text. rewrite <- (get_param_params key or ps Hk H).
  unfold get_param. rewrite index_sub_skip by exact Hv.
  destruct (index_sub (params_text ps) (x3b :: key ++ [x3d])) as [i|]; cbn [option_map]; [|reflexivity].
  rewrite <- Nat.add_assoc, skipn_app_len. reflexivity.
Qed.
Lemma charset_of_spec : forall v ps, ~ In x3b v -> Forall good_param ps ->
  charset_of (header_text v ps) = param_value ps (B "charset") default_encoding.
Proof.
  intros v ps Hv H. apply (param_of_or_spec v ps (B "charset") default_encoding Hv); [|exact H].
  intro Hi; vm_compute in Hi; intuition discriminate.
Qed.

(* quality: q=0.d *)
Lemma index_sub_app_l : forall s sub, has_prefix s sub = true -> index_sub s sub = Some 0%nat.
Proof. intros s sub H. rewrite index_sub_eq, H. reflexivity. Qed.
Lemma atoi_digit : forall d, is_digit d = true -> atoi [d] = Some (bZ d - 48)%Z.
Proof. intros d; destruct d; intros H; try discriminate H; reflexivity. Qed.
Lemma digits_value_app : forall l acc, Forall (fun c => is_digit c = true) l -> digits_value l acc = Some (fold_left (fun n c => (n * 10 + (bZ c - 48))%Z) l acc).
Proof.
  induction l as [|c l IH]; intros acc H; [reflexivity|]. inversion H as [|? ? Hc Hl]; subst. cbn [digits_value fold_left]. rewrite Hc. apply IH. exact Hl.
Qed.
Lemma quality_text : forall v t ps, ~ In x3b v -> ~ In x3b t ->
  quality_of (v ++ B ";q=0." ++ t ++ params_text ps) = match atoi t with Some q => q | None => 9%Z end.
Proof.
  intros v t ps Hv Ht. unfold quality_of, get_param.
  change (B ";q=0.") with (x3b :: B "q=0."). rewrite index_sub_skip by exact Hv.
  rewrite index_sub_app_l by (apply has_prefix_app). cbn [option_map].
  rewrite Nat.add_0_r, skipn_app_len.
  change (skipn (List.length (x3b :: B "q=0.")) ((x3b :: B "q=0.") ++ t ++ params_text ps)) with (header_text t ps).
  rewrite value_of_spec by exact Ht. reflexivity.
Qed.
Lemma quality_digits : forall v sign ds ps, ~ In x3b v -> ds <> [] -> Forall (fun c => is_digit c = true) ds -> (dec_value ds < two63)%Z ->
  sign = [] \/ sign = B "+" \/ sign = B "-" ->
  quality_of (v ++ B ";q=0." ++ (sign ++ ds) ++ params_text ps) = if beqb sign (B "-") then (- dec_value ds)%Z else dec_value ds.
Proof.
  intros v sign ds ps Hv Hn Hd Hm Hs.
  assert (P : (0 <= dec_value ds)%Z).
  { unfold dec_value. clear - Hd. assert (G : forall l acc, Forall (fun c => is_digit c = true) l -> (0 <= acc)%Z -> (0 <= fold_left (fun n c => (n * 10 + (bZ c - 48))%Z) l acc)%Z).
    { induction l as [|c l IH]; intros acc H Ha; [exact Ha|]. inversion H as [|? ? Hc Hl]; subst. cbn. apply IH; [exact Hl|].
      assert (48 <= bZ c)%Z; [|lia]. clear - Hc. destruct c; try discriminate Hc; vm_compute; discriminate. }
    apply G; [exact Hd|lia]. }
  assert (D : digits_value ds 0 = Some (dec_value ds)) by (rewrite digits_value_app by exact Hd; reflexivity).
  assert (Hx : ~ In x3b (sign ++ ds)).
  { rewrite in_app_iff. intros [H|H]; [destruct Hs as [ -> |[ -> | -> ]]; vm_compute in H; intuition discriminate|].
    rewrite Forall_forall in Hd. specialize (Hd _ H). discriminate. }
  rewrite quality_text by assumption.
  assert (A : atoi (sign ++ ds) = Some (if beqb sign (B "-") then (- dec_value ds)%Z else dec_value ds)).
  { destruct Hs as [ -> |[ -> | -> ]]; cbn [app].
    - destruct ds as [|d ds']; [contradiction|]. inversion Hd as [|? ? Hc Hl]; subst.
      assert (E : atoi (d :: ds') = match digits_value (d :: ds') 0 with Some n => if (- two63 <=? n)%Z && (n <? two63)%Z then Some n else None | None => None end)
        by (destruct d; try discriminate Hc; reflexivity).
      rewrite E, D. change (beqb [] (B "-")) with false. cbn iota.
      destruct (Z.leb_spec (- two63) (dec_value (d :: ds'))); [|unfold two63 in *; lia]. destruct (Z.ltb_spec (dec_value (d :: ds')) two63); [reflexivity|lia].
    - change (beqb (B "+") (B "-")) with false. change (B "+" ++ ds) with (x2b :: ds). unfold atoi. cbn iota beta. rewrite D. destruct ds as [|d ds']; [contradiction|].
      destruct (Z.leb_spec (- two63) (dec_value (d :: ds'))); [|unfold two63 in *; lia]. destruct (Z.ltb_spec (dec_value (d :: ds')) two63); [reflexivity|lia].
    - change (beqb (B "-") (B "-")) with true. change (B "-" ++ ds) with (x2d :: ds). unfold atoi. cbn iota beta. rewrite D. destruct ds as [|d ds']; [contradiction|].
      destruct (Z.leb_spec (- two63) (- dec_value (d :: ds'))); [|unfold two63 in *; lia]. destruct (Z.ltb_spec (- dec_value (d :: ds')) two63); [reflexivity|lia]. }
  rewrite A. reflexivity.
Qed.
Lemma quality_digit : forall v d ps, ~ In x3b v -> is_digit d = true -> 
  quality_of (v ++ B ";q=0." ++ d :: params_text ps) = (bZ d - 48)%Z.
Proof.
  intros v d ps Hv Hd. unfold quality_of, get_param.
  change (B ";q=0.") with (x3b :: B "q=0."). rewrite index_sub_skip by exact Hv.
  rewrite index_sub_app_l by (apply has_prefix_app). cbn [option_map].
  rewrite Nat.add_0_r, skipn_app_len. 
  change (skipn (List.length (x3b :: B "q=0.")) ((x3b :: B "q=0.") ++ d :: params_text ps)) with (header_text [d] ps).
  rewrite value_of_spec.
  - rewrite atoi_digit by exact Hd. reflexivity.
  - intros [-> | []]. discriminate.
Qed.
Lemma quality_absent : forall v ps, ~ In x3b v -> Forall good_param ps ->
  (forall e, In e ps -> fst e <> B "q") -> quality_of (header_text v ps) = 9%Z.
Proof.
  intros v ps Hv H Hq. unfold quality_of.
  assert (E : get_param (header_text v ps) (B ";q=0.") (B "9") = B "9").
  { unfold get_param, header_text. change (B ";q=0.") with (x3b :: B "q=0."). rewrite index_sub_skip by exact Hv.
    assert (N : index_sub (params_text ps) (x3b :: B "q=0.") = None).
    { clear Hv. induction H as [|[p x] ps (G1 & G2 & G3) H IH]; [reflexivity|]. cbn [params_text]. rewrite index_sub_eq.
      assert (E : has_prefix (x3b :: p ++ x3d :: x ++ params_text ps) (x3b :: B "q=0.") = false).
      { destruct (has_prefix _ _) eqn:E; [|reflexivity]. exfalso. cbn [has_prefix] in E. rewrite beq_refl in E. cbn [andb] in E.
        apply has_prefix_iff in E. destruct E as (r & E). cbn [fst snd] in *.
        pose proof (cut_app p x3d (x ++ params_text ps) G2) as C1. rewrite E in C1.
        change (B "q=0." ++ r) with (B "q" ++ x3d :: B "0." ++ r) in C1.
        rewrite cut_app in C1 by (intro Hi; vm_compute in Hi; intuition discriminate).
        apply (Hq (p, x)); [left; reflexivity|]. cbn [fst]. congruence. }
      rewrite E. cbn [fst snd] in *.
      replace (p ++ x3d :: x ++ params_text ps) with ((p ++ x3d :: x) ++ params_text ps) by (rewrite <- app_assoc; reflexivity).
      rewrite index_sub_skip.
      - rewrite IH; [reflexivity|]. intros e He. apply Hq. right. exact He.
      - intro Hi. apply in_app_or in Hi. destruct Hi as [Hi|[Hi|Hi]]; [tauto|discriminate|tauto]. }
    rewrite N. reflexivity. }
  rewrite E. reflexivity.
Qed.

(* ---- codings ---- *)
Lemma beqb_dec : forall a b, (beqb a b = true /\ a = b) \/ (beqb a b = false /\ a <> b).
Proof. intros a b. destruct (beqb a b) eqn:E; [left|right]; split; auto; [apply beqb_eq|apply beqb_neq]; exact E. Qed.
Lemma find_add : forall m c t, (serves c t -> map_find (add_coding m c) t = Some c) /\
  (~ serves c t -> map_find (add_coding m c) t = map_find m t).
Proof.
  intros m c t. unfold add_coding, serves.
  destruct (beqb_dec (cd_token c) (B "gzip")) as [[-> Eg]|[-> Ng]].
  - cbn [map_find]. destruct (beqb_dec (B "x-gzip") t) as [[-> <-]|[-> N1]].
    + split; [reflexivity|]. intros H. exfalso. apply H. right. left. auto.
    + destruct (beqb_dec (cd_token c) t) as [[-> <-]|[-> N2]].
      * split; [reflexivity|]. intros H. exfalso. apply H. left. reflexivity.
      * split; [|reflexivity]. intros [H|[[_ H]|[H _]]]; [congruence|congruence|]. rewrite Eg in H. discriminate.
  - destruct (beqb_dec (cd_token c) (B "compress")) as [[-> Ec]|[-> Nc]]; cbn [map_find].
    + destruct (beqb_dec (B "x-compress") t) as [[-> <-]|[-> N1]].
      * split; [reflexivity|]. intros H. exfalso. apply H. right. right. auto.
      * destruct (beqb_dec (cd_token c) t) as [[-> <-]|[-> N2]].
        -- split; [reflexivity|]. intros H. exfalso. apply H. left. reflexivity.
        -- split; [|reflexivity]. intros [H|[[H _]|[_ H]]]; congruence.
    + destruct (beqb_dec (cd_token c) t) as [[-> <-]|[-> N2]].
      * split; [reflexivity|]. intros H. exfalso. apply H. left. reflexivity.
      * split; [|reflexivity]. intros [H|[[H _]|[H _]]]; congruence.
Qed.
Lemma find_registered : forall cs1 c cs2 t, serves c t -> (forall c', In c' cs2 -> ~ serves c' t) ->
  map_find (fold_left add_coding (cs1 ++ c :: cs2) new_manager) t = Some c.
Proof.
  intros cs1 c cs2 t H H2. rewrite fold_left_app. cbn [fold_left].
  generalize (fold_left add_coding cs1 new_manager). intros m.
  assert (X : forall cs m, (forall c', In c' cs -> ~ serves c' t) -> map_find (fold_left add_coding cs m) t = map_find m t).
  { clear. induction cs as [|c cs IH]; intros m H; [reflexivity|]. cbn [fold_left]. rewrite IH.
    - apply find_add. apply H. left. reflexivity.
    - intros c' Hc. apply H. right. exact Hc. }
  rewrite X by exact H2. apply find_add. exact H.
Qed.
Lemma find_unregistered : forall cs t, (forall c, In c cs -> ~ serves c t) ->
  map_find (fold_left add_coding cs new_manager) t = None.
Proof.
  intros cs t H. assert (X : forall cs m, (forall c', In c' cs -> ~ serves c' t) -> map_find (fold_left add_coding cs m) t = map_find m t).
  { clear. induction cs as [|c cs IH]; intros m H; [reflexivity|]. cbn [fold_left]. rewrite IH.
    - apply find_add. apply H. left. reflexivity.
    - intros c' Hc. apply H. right. exact Hc. }
  apply (X cs new_manager H).
Qed.
Lemma coding_identity : forall m t input, t = B "identity" \/ input = [] ->
  m_encode m t input = COk input /\ m_decode m t input = COk input.
Proof.
  intros m t input [-> | ->]; unfold m_encode, m_decode.
  - rewrite beqb_refl. split; reflexivity.
  - rewrite orb_true_r. split; reflexivity.
Qed.
Lemma coding_other : forall m t input, t <> B "identity" -> input <> [] ->
  m_encode m t input = match map_find m t with None => CUnknown | Some c => of_coder (cd_encode c input) end /\
  m_decode m t input = match map_find m t with None => CUnknown | Some c => of_coder (cd_decode c input) end.
Proof.
  intros m t input Ht Hi. unfold m_encode, m_decode. apply beqb_neq in Ht. rewrite Ht.
  destruct input; [congruence|]. split; reflexivity.
Qed.

Lemma coding_registered : forall cs1 c cs2 t input, serves c t -> (forall c', In c' cs2 -> ~ serves c' t) ->
  t <> B "identity" -> input <> [] ->
  let m := fold_left add_coding (cs1 ++ c :: cs2) new_manager in
  m_encode m t input = of_coder (cd_encode c input) /\ m_decode m t input = of_coder (cd_decode c input).
Proof.
  intros cs1 c cs2 t input H H2 Ht Hi m. pose proof (coding_other m t input Ht Hi) as X.
  unfold m in *. rewrite find_registered in X by assumption. exact X.
Qed.
Lemma coding_unregistered : forall cs t input, (forall c, In c cs -> ~ serves c t) -> t <> B "identity" -> input <> [] ->
  let m := fold_left add_coding cs new_manager in
  m_encode m t input = CUnknown /\ m_decode m t input = CUnknown.
Proof.
  intros cs t input H Ht Hi m. pose proof (coding_other m t input Ht Hi) as X.
  unfold m in *. rewrite find_unregistered in X by assumption. exact X.
Qed.

(* ---- address ---- *)
Lemma normalize_host : forall h rest, h <> [] -> ~ In x3a h -> 
  normalize_addr (h ++ x3a :: rest) = h ++ x3a :: rest /\ normalize_addr h = h.
Proof.
  intros h rest Hh Hn. unfold normalize_addr, strip_port. rewrite cut_app by exact Hn.
  assert (C : cut h x3a = None) by (apply cut_none; exact Hn). rewrite C.
  destruct h; [congruence|]. split; reflexivity.
Qed.
Lemma normalize_nohost : forall rest, normalize_addr (x3a :: rest) = B "0.0.0.0:" ++ rest /\
  normalize_addr [] = B "0.0.0.0".
Proof. intros. split; reflexivity. Qed.
Lemma normalize_idem : forall a, normalize_addr (normalize_addr a) = normalize_addr a.
Proof.
  intros a. unfold normalize_addr at 2 3. destruct (strip_port a) eqn:E.
  - assert (X : strip_port (default_addr ++ a) = default_addr).
    { unfold strip_port in E. destruct (cut a x3a) as [[h r]|] eqn:C.
      - subst h. apply cut_some in C. destruct C as [-> _]. reflexivity.
      - subst a. reflexivity. }
    unfold normalize_addr. rewrite X. reflexivity.
  - unfold normalize_addr. rewrite E. reflexivity.
Qed.

(* ---- config ---- *)
Lemma num_or_spec : forall c d, num_or c d = (if Z.eq_dec c 0 then d else c).
Proof. intros. unfold num_or. destruct (Z.eq_dec c 0) as [->|H]; [reflexivity|]. apply Z.eqb_neq in H. rewrite H. reflexivity. Qed.
Lemma fill_setting : forall s src, s <> SCookiesPreAllocate ->
  get_setting s (fill src) = (if Z.eq_dec (get_setting s src) 0 then get_setting s default_config else get_setting s src).
Proof. intros s src H. destruct s; try congruence; cbn [get_setting fill]; apply num_or_spec. Qed.
Lemma fill_headers : forall src, default_headers (fill src) =
  match default_headers src with None => default_headers default_config | Some m => Some m end.
Proof. intros. cbn [fill default_headers]. destruct (default_headers src); reflexivity. Qed.
Lemma num_or_idem : forall c d, num_or (num_or c d) d = num_or c d.
Proof. intros. unfold num_or. destruct (c =? 0)%Z eqn:E; [destruct (d =? 0)%Z; reflexivity|rewrite E; reflexivity]. Qed.
Lemma fill_idem : forall src, fill (fill src) = fill src.
Proof.
  intros src. unfold fill at 1. unfold fill. cbn [url_default url_maximal query_prealloc hnum_default hnum_maximal
    max_key_length max_value_length keyspace_default keyspace_maximal valspace_default valspace_maximal
    max_encoding_tokens default_headers cookies_prealloc body_max_size body_max_chunk body_decoding_buffer
    response_buff file_buff read_buffer read_timeout]. rewrite !num_or_idem.
  destruct (default_headers src); reflexivity.
Qed.

(* ---- escape ---- *)
Lemma escape_byte_printable : forall c, ascii_printable c = false -> ascii_printable (escape_byte c) = true.
Proof. intros c. destruct c; intros H; try reflexivity; discriminate H. Qed.
Lemma rune_cont : forall c rest x, In x (firstn (rune_width (c :: rest) - 1) rest) -> cont x = true.
Proof.
  intros a rest x H. unfold rune_width in H. destruct rest as [|b rest]; [destruct H|].
  destruct (in_range 194 223 a).
  { destruct (cont b) eqn:E; cbn in H; [destruct H as [<-|[]]; exact E|destruct H]. }
  destruct rest as [|c rest]; [destruct H|].
  assert (R : forall lo hi y, (128 <= lo)%N -> (hi <= 191)%N -> in_range lo hi y = true -> cont y = true).
  { intros lo hi y H1 H2 Hr. unfold in_range in Hr. apply andb_true_iff in Hr. destruct Hr as [R1 R2].
    apply N.leb_le in R1. apply N.leb_le in R2. unfold cont, in_range. apply andb_true_iff.
    split; apply N.leb_le; lia. }
  destruct (in_range 224 239 a).
  { match type of H with context [if ?ok && cont c then _ else _] => destruct ok eqn:E1 end;
      destruct (cont c) eqn:E2; cbn [andb] in H; cbn in H; try destruct H as [<-|[<-|[]]]; try destruct H; try exact E2.
    destruct (bN a =? 224)%N; [apply (R 160%N 191%N); [lia|lia|exact E1]|].
    destruct (bN a =? 237)%N; [apply (R 128%N 159%N); [lia|lia|exact E1]|exact E1]. }
  destruct rest as [|d rest]; [destruct H|].
  destruct (in_range 240 244 a).
  { match type of H with context [if ?ok && cont c && cont d then _ else _] => destruct ok eqn:E1 end;
      destruct (cont c) eqn:E2; destruct (cont d) eqn:E3; cbn [andb] in H; cbn in H;
      try destruct H as [<-|[<-|[<-|[]]]]; try destruct H; try assumption.
    destruct (bN a =? 240)%N; [apply (R 144%N 191%N); [lia|lia|exact E1]|].
    destruct (bN a =? 244)%N; [apply (R 128%N 143%N); [lia|lia|exact E1]|exact E1]. }
  destruct H.
Qed.
Lemma escape_aux_safe : forall fuel s x, In x (escape_aux fuel s) -> ascii_printable x = true \/ cont x = true.
Proof.
  induction fuel as [|fuel IH]; intros s x H; [destruct H|]. destruct s as [|c rest]; [destruct H|].
  cbn [escape_aux] in H. apply in_app_or in H. destruct H as [H|H].
  - left. destruct (ascii_printable c) eqn:E; [destruct H as [<-|[]]; exact E|].
    destruct H as [<-|[<-|[]]]; [reflexivity|apply escape_byte_printable; exact E].
  - apply in_app_or in H. destruct H as [H|H]; [right; eapply rune_cont; exact H|eapply IH; exact H].
Qed.
Lemma escape_safe : forall p x, In x (escape p) -> ascii_printable x = true \/ cont x = true.
Proof. intros p x H. eapply escape_aux_safe; exact H. Qed.
Lemma rune_width_low : forall c rest, (bN c < 192)%N -> rune_width (c :: rest) = 1%nat.
Proof.
  intros a rest H. unfold rune_width.
  assert (R : forall lo hi, (192 <= lo)%N -> in_range lo hi a = false).
  { intros lo hi Hl. unfold in_range. destruct (N.leb_spec lo (bN a)); [lia|reflexivity]. }
  destruct rest as [|b [|c [|d rest]]]; rewrite ?R by lia; reflexivity.
Qed.
Lemma escape_aux_printable : forall p fuel, (List.length p <= fuel)%nat -> Forall (fun c => ascii_printable c = true) p ->
  escape_aux fuel p = p.
Proof.
  induction p as [|c p IH]; intros fuel Hf H; destruct fuel as [|fuel]; cbn [List.length] in Hf; try lia; try reflexivity.
  inversion H as [|? ? Hc Hp]; subst. cbn [escape_aux]. rewrite Hc.
  rewrite rune_width_low.
  - cbn [Nat.sub firstn skipn app]. rewrite IH by (try assumption; lia). reflexivity.
  - unfold ascii_printable in Hc. apply andb_true_iff in Hc. destruct Hc as [_ H2]. apply N.leb_le in H2. lia.
Qed.
Lemma escape_printable : forall p, Forall (fun c => ascii_printable c = true) p -> escape p = p.
Proof. intros p H. apply escape_aux_printable; [lia|exact H]. Qed.
Lemma escape_aux_ascii : forall p fuel x, Forall (fun c => (bN c < 128)%N) p ->
  In x (escape_aux fuel p) -> ascii_printable x = true.
Proof.
  induction p as [|c p IH]; intros fuel x H Hx; destruct fuel as [|fuel]; try destruct Hx.
  inversion H as [|? ? Hc Hp]; subst. cbn [escape_aux] in Hx. rewrite rune_width_low in Hx by lia.
  cbn [Nat.sub firstn skipn app] in Hx. apply in_app_or in Hx. destruct Hx as [Hx|Hx]; [|eapply IH; eassumption].
  destruct (ascii_printable c) eqn:E; [destruct Hx as [<-|[]]; exact E|].
  destruct Hx as [<-|[<-|[]]]; [reflexivity|apply escape_byte_printable; exact E].
Qed.
Lemma escape_ascii : forall p x, Forall (fun c => (bN c < 128)%N) p -> In x (escape p) -> ascii_printable x = true.
Proof. intros p x H Hx. eapply escape_aux_ascii; eassumption. Qed.

Lemma printable_iff : forall c, ascii_printable c = true <-> printable c.
Proof. intros c. unfold ascii_printable, printable. rewrite andb_true_iff, !N.leb_le. tauto. Qed.
Lemma tail_iff : forall c, cont c = true <-> utf8_tail c.
Proof. intros c. unfold cont, in_range, utf8_tail. rewrite andb_true_iff, !N.leb_le. tauto. Qed.
Lemma escaped_bytes : forall p x, In x (escape p) -> printable x \/ utf8_tail x.
Proof. intros p x H. rewrite <- printable_iff, <- tail_iff. exact (escape_safe p x H). Qed.
Lemma escaped_same : forall p, Forall printable p -> escape p = p.
Proof. intros p H. apply escape_printable. eapply Forall_impl; [|exact H]. intros c. apply printable_iff. Qed.
Lemma escaped_ascii : forall p x, Forall (fun c => (bN c < 128)%N) p -> In x (escape p) -> printable x.
Proof. intros p x H K. apply printable_iff. exact (escape_ascii p x H K). Qed.
