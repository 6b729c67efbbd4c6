(* Lemmas behind P_Exact2.v. *)
From Verif Require Import M_Base M_Status M_Uri M_KeyValue M_Query M_CookieJar M_HeaderValue M_Proto M_Client M_Request M_Body
  S_Head S_KeyValue S_Query S_Exact S_Exact2 L_Base L_Uri L_Loose L_KeyValue L_Query L_Query2 L_Values L_Head L_ToolParse.
Local Arguments cut : simpl never.

(* ---- C15, C16 ---- *)
Lemma spaced_length : forall s, List.length (spaced s) = List.length s.
Proof. intros s. apply map_length. Qed.
Lemma upto_key : forall d a l, UpToNameless d a l -> forall fuel acc, (List.length d < fuel)%nat ->
  exists b, d = a ++ x3d :: b /\ query_key fuel d acc = (acc ++ l, Some (x3d :: b)).
Proof.
  induction 1 as [d|p e d a l Hn HP H IH]; intros fuel acc Hf; (destruct fuel as [|fuel]; [lia|]).
  - exists d. split; [reflexivity|]. cbn [query_key scan_key]. change (Byte.eqb x3d x3d) with true. cbn [app]. rewrite app_nil_r. reflexivity.
  - rewrite (piece_more p e HP Hn). rewrite app_length in Hf. cbn [List.length] in Hf.
    destruct (IH fuel (acc ++ [e]) ltac:(lia)) as (b & -> & E). exists b. split; [rewrite <- app_assoc; reflexivity|]. rewrite E, <- app_assoc. reflexivity.
Qed.
Lemma nameless_upto : forall d, NamelessText d -> exists a l, UpToNameless d a l.
Proof.
  induction 1 as [d|p e d Hn HP H (a & l & IH)]; [exists [], []; constructor|]. exists (p ++ x26 :: a), (e :: l). constructor; assumption.
Qed.
Lemma reading_parse : forall raw l e, Reading raw l e -> query_parse raw = (l, e).
Proof.
  intros raw l e [raw0 d l0 Hd Hq|raw0 d a l0 Hd Hu|a d t Ha Ht].
  - apply decodes_exactly in Hd. unfold query_parse. destruct raw0 as [|c raw'].
    + vm_compute in Hd. injection Hd as <-. inversion Hq as [|? ? Hne|p ? ? ? ? ? ? Hc]; subst; try reflexivity; [congruence|destruct p; discriminate Hc].
    + rewrite Hd. rewrite (text_key d l0 Hq) by lia. reflexivity.
  - apply decodes_exactly in Hd. unfold query_parse. destruct raw0 as [|c raw'].
    + vm_compute in Hd. injection Hd as <-. inversion Hu as [|p ? ? ? ? ? ? ? Hc]; subst. destruct p; discriminate Hc.
    + rewrite Hd. destruct (upto_key d a l0 Hu (S (List.length d)) [] ltac:(lia)) as (b & _ & ->). reflexivity.
  - assert (U : uri_decode (a ++ x25 :: t) = None) by (apply refused_exactly; exists a, d, t; auto). unfold query_parse.
    destruct (a ++ x25 :: t) eqn:E; [destruct a; discriminate E|]. rewrite U. reflexivity.
Qed.
Lemma reading_total : forall raw, exists l e, Reading raw l e.
Proof.
  intros raw. destruct (uri_decode raw) as [d|] eqn:E.
  - apply decodes_exactly in E. destruct (text_total (List.length d) d (le_n _)) as [(l & Hl)|Hb].
    + exists l, None. econstructor; eassumption.
    + destruct (nameless_upto d Hb) as (a & l & Hu). exists l, (Some ErrBadQuery). econstructor; eassumption.
  - apply refused_exactly in E. destruct E as (a & d & t & Ha & Ht & ->). exists [], (Some ErrURIDecoding). econstructor; eassumption.
Qed.
Lemma reading_exactly : forall raw l e, Reading raw l e <-> query_parse raw = (l, e).
Proof.
  intros raw l e. split; [apply reading_parse|]. intros H. destruct (reading_total raw) as (l' & e' & R).
  pose proof (reading_parse _ _ _ R) as P. rewrite H in P. injection P as -> ->. exact R.
Qed.
Lemma reading_answers : forall q raw l e, (q_parsed q = false -> kv_pairs (q_params q) = []) -> Reading raw l e ->
  forall accesses, Answers l e accesses (snd (q_calls (query_set q raw) accesses)).
Proof.
  intros q raw l e H R accesses. destruct (query_set_fresh q raw H) as [F1 F2]. apply reading_parse in R. rewrite <- F2 in R.
  destruct e as [e|]; [|constructor; apply q_calls_good; assumption].
  destruct accesses as [|a accesses]; [constructor|]. destruct (do_parse_fresh _ l (Some e) F1 R) as (q' & P1 & P2 & P3).
  cbn [q_calls]. destruct a as [k|]; unfold q_call, query_get, query_unwrap; rewrite P1;
    pose proof (q_calls_parsed accesses q' l P2 P3) as C; destruct (q_calls q' accesses) as [q2 rs]; cbn [snd] in *;
    [constructor; exact C|rewrite P3; constructor; exact C].
Qed.

(* one escape decoded in place *)
Lemma decode_step : forall f mem r e w a h l rest,
  (w <= r)%nat -> (r <= e)%nat -> (e <= List.length mem)%nat ->
  cut (slice mem r e) x25 = Some (a, h :: l :: rest) ->
  exists mem2, uri_decode_mem_aux (S f) mem r e w = uri_decode_mem_aux f mem2 (r + List.length a + 3) e (w + List.length a + 1) /\
    List.length mem2 = List.length mem /\ slice mem2 (r + List.length a + 3) e = rest /\
    firstn (w + List.length a + 1) mem2 = firstn w mem ++ a ++ [bor (shl4 (hexconv h)) (hexconv l)] /\
    skipn (w + List.length a + 1) mem2 = skipn (w + List.length a + 1) mem /\ (r + List.length a + 3 <= e)%nat.
Proof.
  intros f mem r e w a h l rest Hwr Hre Hel Ec. cbn [uri_decode_mem_aux]. rewrite Ec.
  pose proof (cut_len _ _ _ _ Ec) as Hl. rewrite slice_length in Hl by exact Hel.
  apply cut_some in Ec. destruct Ec as [Es Hn]. cbn [List.length] in Hl.
  set (i := List.length a) in *.
  set (mem1 := write_at mem w (slice mem r (r + i))).
  assert (Hsa : slice mem r (r + i) = a).
  { pose proof (slice_split mem r e i ltac:(lia)) as Hsp. rewrite Es in Hsp.
    apply (f_equal (firstn i)) in Hsp. rewrite firstn_app in Hsp.
    unfold i in Hsp at 1 2. rewrite firstn_all, Nat.sub_diag in Hsp. simpl in Hsp.
    rewrite app_nil_r in Hsp. symmetry. etransitivity; [exact Hsp|]. rewrite firstn_app.
    rewrite slice_length by lia. replace (r + i - r)%nat with i by lia.
    rewrite Nat.sub_diag. simpl. rewrite app_nil_r. apply firstn_all2.
    rewrite slice_length by lia. lia. }
  assert (Hla : List.length (slice mem r (r + i)) = i) by (rewrite Hsa; reflexivity).
  assert (Hl1 : List.length mem1 = List.length mem)
    by (unfold mem1; apply write_at_length; rewrite Hla; lia).
  assert (Hs1 : skipn (w + i) mem1 = skipn (w + i) mem)
    by (unfold mem1; apply skipn_write_at; [rewrite Hla; lia|lia]).
  assert (Hs1' : skipn (r + i) mem1 = skipn (r + i) mem)
    by (unfold mem1; apply skipn_write_at; [rewrite Hla; lia|lia]).
  assert (Htail : slice mem (r + i) e = x25 :: h :: l :: rest).
  { pose proof (slice_split mem r e i ltac:(lia)) as Hsp. rewrite Es, Hsa in Hsp.
    apply app_inv_head in Hsp. symmetry. exact Hsp. }
  assert (Hnth : forall k, (k < e - (r + i))%nat ->
            nth (r + i + k) mem1 x00 = nth k (x25 :: h :: l :: rest) x00).
  { intros k Hk. rewrite <- Htail. rewrite <- nth_skipn, Hs1'. unfold slice.
    rewrite <- (firstn_skipn (e - (r + i)) (skipn (r + i) mem)) at 1.
    apply app_nth1. rewrite firstn_length, skipn_length. lia. }
  assert (Hlt : List.length (x25 :: h :: l :: rest) = (e - (r + i))%nat)
    by (rewrite <- Htail; apply slice_length; lia).
  simpl in Hlt.
  rewrite (Hnth 1%nat) by lia. rewrite (Hnth 2%nat) by lia. simpl (nth _ _ _).
  set (v := bor (shl4 (hexconv h)) (hexconv l)).
  set (mem2 := write_at mem1 (w + i) [v]).
  assert (Hl2 : List.length mem2 = List.length mem)
    by (unfold mem2; rewrite write_at_length; [exact Hl1|simpl; lia]).
  assert (Hs2 : skipn (w + i + 1) mem2 = skipn (w + i + 1) mem).
  { unfold mem2. rewrite skipn_write_at; [|simpl; lia|simpl; lia].
    rewrite <- !(skipn_add _ _ 1). rewrite Hs1. reflexivity. }
  assert (Hs2' : skipn (r + i + 3) mem2 = skipn (r + i + 3) mem).
  { replace (r + i + 3)%nat with ((w + i + 1) + (r - w + 2))%nat by lia.
    rewrite <- !(skipn_add _ _ (r - w + 2)). rewrite Hs2. reflexivity. }
  exists mem2. split; [reflexivity|]. split; [exact Hl2|]. split; [|split; [|split; [exact Hs2|lia]]].
  - unfold slice. rewrite Hs2'. fold (slice mem (r + i + 3) e).
    pose proof (slice_split mem (r + i) e 3 ltac:(lia)) as Hsp. rewrite Htail in Hsp.
    change (x25 :: h :: l :: rest) with ([x25; h; l] ++ rest) in Hsp.
    symmetry. apply (app_eq_len _ _ _ _ _ Hsp).
    rewrite slice_length by lia. simpl. lia.
  - unfold mem2. change (w + i + 1)%nat with ((w + i) + List.length [v])%nat.
    rewrite firstn_write_at by (simpl; lia).
    rewrite app_assoc. f_equal. unfold mem1.
    pose proof (firstn_write_at mem w (slice mem r (r + i)) ltac:(lia)) as Hx.
    rewrite Hla, Hsa in Hx. rewrite Hsa. exact Hx.
Qed.
Lemma loose_app : forall a x, LooselyDecodes a x -> forall b y, LooselyDecodes b y -> LooselyDecodes (a ++ b) (x ++ y).
Proof. induction 1; intros b y Hb; cbn [app]; [exact Hb| |]; constructor; auto. Qed.
Lemma loose_plain : forall a, ~ In x25 a -> LooselyDecodes a a.
Proof. induction a as [|c a IH]; intros H; [constructor|]. constructor; [intros ->; apply H; left; reflexivity|]. apply IH. intro; apply H; right; assumption. Qed.
Lemma escape_value : forall h l, bor (shl4 (hexconv h)) (hexconv l) = byte_of_N (16 * digit_or_0 h + digit_or_0 l).
Proof. intros h l. destruct (hexconv_any h) as [-> Bh]. destruct (hexconv_any l) as [-> Bl]. apply nibbles; assumption. Qed.
(* what lies behind the bytes written stays as it was *)
Lemma mem_behind : forall fuel mem r e w,
  (e - r < fuel)%nat -> (w <= r)%nat -> (r <= e)%nat -> (e <= List.length mem)%nat -> (w = 0%nat -> r = 0%nat) ->
  forall mem' res, uri_decode_mem_aux fuel mem r e w = (mem', res) ->
  match pct_lax (slice mem r e) with
  | Some d => skipn (w + List.length d) mem' = skipn (w + List.length d) mem
  | None => exists a d b t, slice mem r e = a ++ b ++ x25 :: t /\ LooselyDecodes a d /\ (a = [] \/ exists a' h l d', a = a' ++ [x25; h; l] /\ LooselyDecodes a' d') /\
              ~ In x25 b /\ (List.length t < 2)%nat /\ firstn (w + List.length d) mem' = firstn w mem ++ d /\ skipn (w + List.length d) mem' = skipn (w + List.length d) mem
  end.
Proof.
  induction fuel as [|f IH]; intros mem r e w Hf Hwr Hre Hel Hw0 mem' res H; [lia|].
  destruct (cut (slice mem r e) x25) as [[a b]|] eqn:Ec.
  - pose proof Ec as Ec'. apply cut_some in Ec'. destruct Ec' as [Es Hn].
    rewrite Es, pct_lax_app by exact Hn.
    assert (Short : (List.length b < 2)%nat -> mem' = mem -> exists a0 d b0 t, a ++ x25 :: b = a0 ++ b0 ++ x25 :: t /\ LooselyDecodes a0 d /\ (a0 = [] \/ exists a' h l d', a0 = a' ++ [x25; h; l] /\ LooselyDecodes a' d') /\
      ~ In x25 b0 /\ (List.length t < 2)%nat /\ firstn (w + List.length d) mem' = firstn w mem ++ d /\ skipn (w + List.length d) mem' = skipn (w + List.length d) mem).
    { intros Hb ->. exists [], [], a, b. split; [reflexivity|]. split; [constructor|]. split; [left; reflexivity|]. split; [exact Hn|]. split; [exact Hb|].
      cbn [List.length]. rewrite Nat.add_0_r, app_nil_r. split; reflexivity. }
    destruct b as [|h [|l rest]].
    + cbn [uri_decode_mem_aux] in H. rewrite Ec in H. injection H as <- _. apply Short; [cbn; lia|reflexivity].
    + cbn [uri_decode_mem_aux] in H. rewrite Ec in H. injection H as <- _. apply Short; [cbn; lia|reflexivity].
    + clear Short. destruct (decode_step f mem r e w a h l rest Hwr Hre Hel Ec) as (mem2 & E & L2 & S2 & F2 & K2 & B2). rewrite E in H.
      specialize (IH mem2 (r + List.length a + 3)%nat e (w + List.length a + 1)%nat ltac:(lia) ltac:(lia) ltac:(lia) ltac:(lia) ltac:(lia) mem' res H). rewrite S2 in IH.
      cbn [pct_lax]. change (Byte.eqb x25 x25) with true. cbn iota.
      destruct (pct_lax rest) as [d|].
      * cbn [option_map app List.length]. rewrite app_length. cbn [List.length].
        replace (w + (List.length a + S (List.length d)))%nat with (w + List.length a + 1 + List.length d)%nat by lia. rewrite IH.
        rewrite <- !(skipn_add _ _ (List.length d)). rewrite K2. reflexivity.
      * cbn [option_map]. destruct IH as (a2 & d2 & b2 & t2 & -> & La & Le & Hb & Ht & Fm & Sm).
        exists (a ++ x25 :: h :: l :: a2), (a ++ byte_of_N (16 * digit_or_0 h + digit_or_0 l) :: d2), b2, t2.
        split; [rewrite <- app_assoc; reflexivity|]. split; [apply loose_app; [apply loose_plain; exact Hn|constructor; exact La]|]. split.
        { right. destruct Le as [->|(a' & h' & l' & d' & -> & Ld)].
          - exists a, h, l, a. split; [reflexivity|apply loose_plain; exact Hn].
          - exists (a ++ x25 :: h :: l :: a'), h', l'. eexists. split; [rewrite <- app_assoc; reflexivity|]. apply loose_app; [apply loose_plain; exact Hn|constructor; exact Ld]. }
        split; [exact Hb|]. split; [exact Ht|]. rewrite app_length. cbn [List.length].
        replace (w + (List.length a + S (List.length d2)))%nat with (w + List.length a + 1 + List.length d2)%nat by lia. split.
        { rewrite Fm, F2, escape_value. rewrite <- !app_assoc. reflexivity. }
        { rewrite Sm. rewrite <- !(skipn_add _ _ (List.length d2)). rewrite K2. reflexivity. }
  - cbn [uri_decode_mem_aux] in H. rewrite Ec in H. apply cut_none in Ec. rewrite pct_lax_plain by exact Ec. rewrite slice_length by exact Hel.
    destruct (Nat.eqb w 0); injection H as <- _; [reflexivity|]. apply skipn_write_at; [rewrite slice_length by exact Hel; lia|lia].
Qed.
Lemma leaves_exactly : forall raw, exists mem, Leaves raw mem /\ query_raw_after raw = mem.
Proof.
  intros raw. eexists. split; [|reflexivity]. unfold query_raw_after.
  destruct (uri_decode_mem_ok raw (List.length raw) (le_n _)) as (mem & res & E & Hl & _ & Hr). rewrite firstn_all in Hr.
  unfold uri_decode_mem in E. pose proof (mem_behind (S (List.length raw)) raw 0 (List.length raw) 0 ltac:(lia) ltac:(lia) ltac:(lia) ltac:(lia) ltac:(lia) mem res E) as B.
  rewrite firstn_slice, firstn_all in B. rewrite uri_decode_lax in Hr. unfold uri_decode_mem. rewrite E.
  destruct (pct_lax raw) as [d|] eqn:Ed.
  - destruct Hr as (j & -> & Hj & Hs). cbn [Nat.add] in B.
    assert (Lj : List.length d = j) by (rewrite <- Hs; rewrite slice_length by lia; lia). rewrite Hs. rewrite firstn_slice in Hs.
    apply (loose_lax (List.length raw)) in Ed; [|lia]. cbn [firstn app Nat.add].
    destruct (text_total (List.length d) d (le_n _)) as [(l & Hq)|Hb].
    + rewrite (text_key d l Hq) by lia. cbn [snd]. rewrite Nat.sub_0_r, firstn_all. rewrite B.
      rewrite <- (spaced_length d). exact (Lv_good raw d l Ed Hq).
    + destruct (nameless_upto d Hb) as (a & l & Hu). destruct (upto_key d a l Hu (S (List.length d)) [] ltac:(lia)) as (b & Eb & ->). cbn [snd].
      assert (La : (List.length d - List.length (x3d :: b) = List.length a)%nat) by (rewrite Eb, app_length; lia). rewrite La.
      assert (Fa : firstn (List.length a) d = a) by (rewrite Eb, firstn_app, firstn_all, Nat.sub_diag; cbn [firstn]; apply app_nil_r). rewrite Fa.
      assert (Sm : skipn (List.length a) mem = (x3d :: b) ++ skipn (List.length d) raw).
      { rewrite <- B. rewrite <- (firstn_skipn j mem) at 1. rewrite Hs, <- Lj. rewrite Eb at 1. rewrite <- app_assoc. rewrite skipn_app, skipn_all, Nat.sub_diag. reflexivity. }
      rewrite Sm. rewrite app_assoc.
      assert (Ll : List.length d = List.length (spaced a ++ x3d :: b)) by (rewrite app_length, spaced_length, Eb, app_length; reflexivity). rewrite Ll.
      exact (Lv_nameless raw d a (x3d :: b) l Ed Hu Eb).
  - subst res. destruct B as (a & d & b & t & -> & La & Le & Hb & Ht & Fm & Sm). cbn [Nat.add firstn app] in Fm, Sm.
    rewrite <- (firstn_skipn (List.length d) mem). rewrite Fm, Sm. exact (Lv_escape a d b t La Le Hb Ht).
Qed.
Lemma raw_kept : forall l q, q_parsed q = true -> query_raw (fst (q_calls q l)) = query_raw q.
Proof.
  induction l as [|a l IH]; intros q H; [reflexivity|]. cbn [q_calls].
  assert (E : query_do_parse q = (q, None)) by (unfold query_do_parse; rewrite H; reflexivity).
  destruct a as [k|]; unfold q_call, query_get, query_unwrap; rewrite E; specialize (IH q H); destruct (q_calls q l) as [q2 rs]; exact IH.
Qed.
Lemma raw_exactly : forall q raw a accesses, (q_parsed q = false -> kv_pairs (q_params q) = []) ->
  Leaves raw (query_raw (fst (q_calls (query_set q raw) (a :: accesses)))).
Proof.
  intros q raw a accesses H. destruct (leaves_exactly raw) as (mem & Hm & E).
  assert (P : exists q' e, query_do_parse (query_set q raw) = (q', e) /\ q_parsed q' = true /\ q_raw q' = query_raw_after raw).
  { unfold query_set, query_do_parse. destruct (q_parsed q) eqn:Eq; cbn [q_parsed q_raw q_params]; destruct (query_parse raw) as [ps e]; eexists _, _; repeat split. }
  destruct P as (q' & e & P1 & P2 & P3). cbn [q_calls].
  destruct a as [k|]; unfold q_call, query_get, query_unwrap; rewrite P1; pose proof (raw_kept accesses q' P2) as K; destruct e; destruct (q_calls q' accesses) as [q2 rs];
    cbn [fst] in *; rewrite K; unfold query_raw; rewrite P3, E; exact Hm.
Qed.

(* ---------------------------------------------------------------- C18 *)
Lemma cut_dec : forall (s : bytes) c, (~ In c s) \/ exists a b, s = a ++ c :: b /\ ~ In c a.
Proof. intros s c. destruct (cut s c) as [[a b]|] eqn:E; [right; exists a, b; apply cut_some; exact E|left; apply cut_none; exact E]. Qed.
Lemma cookie_header_parse : forall t l ok, CookieHeader t l ok -> forall f acc, (List.length t < f)%nat -> cookie_parse_aux f t acc = (acc ++ l, negb ok).
Proof.
  induction 1 as [|k v Hk Hek Hsv|k v gap d l ok Hk Hek Hsv Hg H IH|d|d Hd He]; intros f acc Hf; (destruct f as [|f]; [cbn in Hf; lia|]).
  - rewrite app_nil_r. reflexivity.
  - cbn [cookie_parse_aux]. destruct (k ++ x3d :: v) eqn:E; [destruct k; discriminate|]. rewrite <- E. rewrite cut_app by exact Hek.
    destruct k as [|c k]; [congruence|]. apply cut_none in Hsv. rewrite Hsv. destruct f; [|reflexivity]. exfalso. apply (f_equal (@List.length byte)) in E. rewrite app_length in E. cbn in E, Hf. lia.
  - cbn [cookie_parse_aux]. destruct (k ++ x3d :: v ++ x3b :: gap ++ d) eqn:E; [destruct k; discriminate|]. rewrite <- E. rewrite cut_app by exact Hek.
    rewrite cut_app by exact Hsv. destruct k as [|c k]; [congruence|].
    assert (Es : strip_space (gap ++ d) = d) by (destruct Hg as [->|[-> Hn]]; [reflexivity|]; cbn [app]; destruct d as [|x d]; [reflexivity|]; unfold strip_space; destruct x; try reflexivity; exfalso; exact (Hn d eq_refl)).
    rewrite Es, IH; [rewrite <- app_assoc; reflexivity|].
    apply (f_equal (@List.length byte)) in E. rewrite !app_length in E. cbn [List.length] in E, Hf. rewrite !app_length in E. cbn [List.length] in E. rewrite app_length in E. lia.
  - cbn [cookie_parse_aux]. change (x3d :: d) with ([] ++ x3d :: d). rewrite cut_app by (intros []). rewrite app_nil_r. reflexivity.
  - cbn [cookie_parse_aux]. destruct d as [|c d]; [congruence|]. apply cut_none in He. rewrite He, app_nil_r. reflexivity.
Qed.
Lemma cookie_header_total : forall n t, (List.length t <= n)%nat -> exists l ok, CookieHeader t l ok.
Proof.
  induction n as [|n IH]; intros t Hn; [destruct t; [eexists _, _; constructor|cbn in Hn; lia]|].
  destruct t as [|c t]; [eexists _, _; constructor|]. destruct (cut_dec (c :: t) x3d) as [Hno|(k & r & E & Hk)].
  - eexists _, _. apply CH_no_value; [discriminate|exact Hno].
  - destruct k as [|y k]; [rewrite E; eexists _, _; apply CH_nameless|]. rewrite E in Hn |- *. clear E c t.
    destruct (cut_dec r x3b) as [Hno|(v & d & -> & Hv)]; [eexists _, _; apply CH_last; [discriminate|exact Hk|exact Hno]|].
    rewrite app_length in Hn. cbn [List.length] in Hn. rewrite app_length in Hn. cbn [List.length] in Hn.
    assert (G : exists gap d', d = gap ++ d' /\ (gap = [SP] \/ (gap = [] /\ forall r, d' <> SP :: r))).
    { destruct d as [|x d]; [exists [], []; split; [reflexivity|right; split; [reflexivity|discriminate]]|].
      destruct (Byte.byte_eq_dec x SP) as [->|Hx]; [exists [SP], d; split; [reflexivity|left; reflexivity]|]. exists [], (x :: d). split; [reflexivity|]. right. split; [reflexivity|]. intros r E. injection E as -> _. apply Hx. reflexivity. }
    destruct G as (gap & d' & -> & Hg). rewrite app_length in Hn. destruct (IH d' ltac:(lia)) as (l & ok & H).
    exists ((y :: k, v) :: l), ok. apply CH_more; [discriminate|exact Hk|exact Hv|exact Hg|exact H].
Qed.
Lemma cookie_header_exactly : forall t l bad, cookie_parse t = (l, bad) <-> CookieHeader t l (negb bad).
Proof.
  intros t l bad. unfold cookie_parse. split.
  - intros H. destruct (cookie_header_total _ t (le_n _)) as (l' & ok & C). pose proof (cookie_header_parse _ _ _ C (S (List.length t)) [] ltac:(lia)) as E.
    rewrite H in E. injection E as -> ->. rewrite Bool.negb_involutive. exact C.
  - intros C. rewrite (cookie_header_parse _ _ _ C) by lia. rewrite Bool.negb_involutive. reflexivity.
Qed.
Lemma cookies_values_exactly : forall vs acc l, cookies_of_values vs acc = Some l <-> exists ls, Forall2 (fun t l => CookieHeader t l true) vs ls /\ l = acc ++ concat ls.
Proof.
  induction vs as [|v vs IH]; intros acc l; cbn [cookies_of_values].
  - split; [intros H; injection H as <-; exists []; split; [constructor|cbn [concat]; rewrite app_nil_r; reflexivity]|].
    intros (ls & H & ->). inversion H; subst. cbn [concat]. rewrite app_nil_r. reflexivity.
  - destruct (cookie_parse v) as [ps bad] eqn:E. apply cookie_header_exactly in E. destruct bad.
    + split; [discriminate|]. intros (ls & H & _). inversion H as [|? p ? ? Hp]; subst. change true with (negb false) in Hp. apply cookie_header_exactly in Hp. apply cookie_header_exactly in E. congruence.
    + rewrite IH. split.
      * intros (ls & H & ->). exists (ps :: ls). split; [constructor; [exact E|exact H]|]. cbn [concat]. rewrite <- app_assoc. reflexivity.
      * intros (ls & H & ->). inversion H as [|? p ? ls' Hp Hls]; subst. exists ls'. split; [exact Hls|].
        change true with (negb false) in Hp. apply cookie_header_exactly in Hp. apply cookie_header_exactly in E. replace p with ps by congruence. cbn [concat]. rewrite <- app_assoc. reflexivity.
Qed.
Lemma request_cookies_exactly : forall s l, request_cookies s = Some l <->
  exists ls, Forall2 (fun t l => CookieHeader t l true) (all_values (kv_pairs s) (B "cookie")) ls /\ l = concat ls.
Proof.
  intros s l. unfold request_cookies, kv_values_of. cbn [snd]. rewrite pairs_values_spec. cbn [app].
  set (vs := all_values (kv_pairs s) (B "cookie")). replace (match match vs with [] => None | _ :: _ => Some vs end with Some l0 => l0 | None => [] end) with vs by (destruct vs; reflexivity).
  apply cookies_values_exactly.
Qed.

(* ---------------------------------------------------------------- C49 *)
Lemma value_of_exactly : forall s v, value_of s = v <-> UpToSemicolon s v.
Proof.
  intros s v. unfold value_of, UpToSemicolon. destruct (cut s x3b) as [[a b]|] eqn:E.
  - pose proof E as E'. apply cut_some in E'. destruct E' as [-> Hn]. split.
    + intros <-. split; [exact Hn|]. right. exists b. reflexivity.
    + intros [Hv [H|(r & H)]]; [exfalso; apply Hv; rewrite <- H; apply in_or_app; right; left; reflexivity|].
      rewrite H, cut_app in E by exact Hv. congruence.
  - apply cut_none in E. split.
    + intros <-. split; [exact E|left; reflexivity].
    + intros [_ [H|(r & ->)]]; [exact H|]. exfalso. apply E. apply in_or_app. right. left. reflexivity.
Qed.
Lemma param_exactly : forall s sub or v, get_param s sub or = v <-> Param sub s or v.
Proof.
  intros s sub or v. unfold get_param. destruct (index_sub s sub) as [i|] eqn:E.
  - destruct (index_sub_some _ _ _ E) as (a & b & -> & La). pose proof (index_first _ _ _ E) as F. subst i.
    assert (Es : skipn (List.length a + List.length sub) (a ++ sub ++ b) = b).
    { rewrite <- (app_length a sub), app_assoc. rewrite skipn_app, skipn_all, Nat.sub_diag. reflexivity. }
    rewrite Es, value_of_exactly. split.
    + intros H. apply (Pa_found _ _ _ b); [|exact H]. exists a. split; [reflexivity|exact F].
    + intros H. inversion H as [b' v' Ha Hu|Hn]; subst.
      * destruct Ha as (a' & Ea & Fa). assert (L : List.length a = List.length a').
        { apply Nat.le_antisymm; [exact (F _ _ Ea)|exact (Fa a b eq_refl)]. }
        rewrite (app_assoc a sub b), (app_assoc a' sub b') in Ea.
        assert (Eb' : b = b') by (apply (app_eq_len _ _ _ _ _ Ea); rewrite !app_length; lia). subst b'. exact Hu.
      * exfalso. exact (Hn a b eq_refl).
  - apply index_sub_none in E. split.
    + intros <-. apply Pa_absent. intros a b Hs. apply E. exists a, b. exact Hs.
    + intros H. inversion H as [b v' (a & Ea & _) _|Hn]; subst; [|reflexivity]. exfalso. apply E. exists a, b. reflexivity.
Qed.
Lemma digits_exactly : forall s acc n, digits_value s acc = Some n <-> Forall (fun c => (48 <= bN c <= 57)%N) s /\ n = dec_number s acc.
Proof.
  induction s as [|c s IH]; intros acc n; cbn [digits_value dec_number].
  - split; [intros H; injection H as <-; split; [constructor|reflexivity]|]. intros [_ ->]. reflexivity.
  - unfold is_digit. destruct (N.leb_spec 48 (bN c)); destruct (N.leb_spec (bN c) 57); cbn [andb].
    1: rewrite IH; replace (acc * 10 + (bZ c - 48))%Z with (10 * acc + (bZ c - 48))%Z by lia; split; intros [H1 H2]; (split; [|exact H2]); [constructor; [lia|exact H1]|inversion H1; assumption].
    all: split; [discriminate|]; intros [H1 _]; inversion H1; lia.
Qed.
Lemma atoi_exactly : forall s n, atoi s = Some n <-> Number s n.
Proof.
  assert (Go : forall (neg : bool) (sign ds s : bytes), sign = (if neg then B "-" else sign) -> (neg = false -> sign = [] \/ sign = B "+") -> s = sign ++ ds ->
    forall n : Z, match ds with
  | [] => None
  | _ => match digits_value ds 0 with
         | Some n => let v := if neg then (- n)%Z else n in
                     if (- two63 <=? v)%Z && (v <? two63)%Z then Some v else None
         | None => None
         end
  end = Some n <-> ds <> [] /\ Forall (fun c => (48 <= bN c <= 57)%N) ds /\ n = (if beqb sign (B "-") then - dec_number ds 0 else dec_number ds 0)%Z /\ (- two63 <= n < two63)%Z).
  { intros neg sign ds s Hs Hp _ n.
    assert (Eneg : beqb sign (B "-") = neg) by (destruct neg; [rewrite Hs; reflexivity|destruct (Hp eq_refl) as [->| ->]; reflexivity]). rewrite Eneg.
    destruct ds as [|c ds]; [split; [discriminate|intros [H _]; congruence]|]. destruct (digits_value (c :: ds) 0) as [m|] eqn:E.
    - apply digits_exactly in E. destruct E as [F ->]. cbv zeta. set (v := if neg then (- dec_number (c :: ds) 0)%Z else dec_number (c :: ds) 0).
      destruct (Z.leb_spec (- two63) v); destruct (Z.ltb_spec v two63); cbn [andb].
      1: split; [intros X; injection X as <-; split; [discriminate|]; split; [exact F|]; split; [reflexivity|lia]|intros (_ & _ & -> & _); reflexivity].
      all: split; [discriminate|intros (_ & _ & -> & B); unfold v in *; lia].
    - split; [discriminate|]. intros (_ & F & _). assert (X : digits_value (c :: ds) 0 = Some (dec_number (c :: ds) 0)) by (apply digits_exactly; split; [exact F|reflexivity]). congruence. }
  assert (Plain : forall s, (forall r, s <> x2b :: r) -> (forall r, s <> x2d :: r) -> atoi s = match s with
  | [] => None
  | _ => match digits_value s 0 with
         | Some n => if (- two63 <=? n)%Z && (n <? two63)%Z then Some n else None
         | None => None
         end
  end).
  { intros s H1 H2. destruct s as [|c s]; [reflexivity|]. unfold atoi. destruct c; try reflexivity; exfalso; [exact (H1 s eq_refl)|exact (H2 s eq_refl)]. }
  intros s n. split.
  - intros H.
    assert (D : (exists r, s = x2b :: r) \/ (exists r, s = x2d :: r) \/ ((forall r, s <> x2b :: r) /\ (forall r, s <> x2d :: r))).
    { destruct s as [|c s]; [right; right; split; discriminate|]. destruct (Byte.byte_eq_dec c x2b) as [->|N1]; [left; exists s; reflexivity|].
      destruct (Byte.byte_eq_dec c x2d) as [->|N2]; [right; left; exists s; reflexivity|]. right; right; split; intros r E; injection E as E _; congruence. }
    destruct D as [(r & ->)|[(r & ->)|[N1 N2]]].
    + apply (proj1 (Go false (B "+") r _ eq_refl (fun _ => or_intror eq_refl) eq_refl n)) in H. destruct H as (H1 & H2 & H3 & H4).
      change (x2b :: r) with (B "+" ++ r). apply Nu_sign; auto.
    + apply (proj1 (Go true (B "-") r _ eq_refl ltac:(discriminate) eq_refl n)) in H. destruct H as (H1 & H2 & H3 & H4).
      change (x2d :: r) with (B "-" ++ r). apply Nu_sign; auto.
    + rewrite Plain in H by assumption. apply (proj1 (Go false [] s _ eq_refl (fun _ => or_introl eq_refl) eq_refl n)) in H. destruct H as (H1 & H2 & H3 & H4).
      change s with ([] ++ s). apply Nu_sign; auto.
  - intros H. inversion H as [sign ds n' Hs Hd Hf Hn Hb E1 E2]. subst s n'. destruct Hs as [->|[->| ->]].
    + rewrite Plain; [|intros r E; cbn [app] in E; subst ds; inversion Hf as [|? ? X]; cbv in X; destruct X as [X _]; congruence
                     |intros r E; cbn [app] in E; subst ds; inversion Hf as [|? ? X]; cbv in X; destruct X as [X _]; congruence].
      apply (proj2 (Go false [] ds _ eq_refl (fun _ => or_introl eq_refl) eq_refl n)). auto.
    + apply (proj2 (Go false (B "+") ds _ eq_refl (fun _ => or_intror eq_refl) eq_refl n)). auto.
    + apply (proj2 (Go true (B "-") ds _ eq_refl ltac:(discriminate) eq_refl n)). auto.
Qed.
Lemma quality_exactly : forall s q, quality_of s = q <->
  exists t, Param (B ";q=0.") s (B "9") t /\ (Number t q \/ (forall n, ~ Number t n) /\ q = 9%Z).
Proof.
  intros s q. unfold quality_of. set (t := get_param s (B ";q=0.") (B "9")).
  assert (Ht : Param (B ";q=0.") s (B "9") t) by (apply param_exactly; reflexivity). split.
  - intros H. exists t. split; [exact Ht|]. destruct (atoi t) as [n|] eqn:E.
    + left. apply atoi_exactly. congruence.
    + right. split; [|congruence]. intros n Hn. apply atoi_exactly in Hn. congruence.
  - intros (t' & Ht' & H). apply param_exactly in Ht'. fold t in Ht'. subst t'. destruct H as [H|[H ->]].
    + apply atoi_exactly in H. rewrite H. reflexivity.
    + destruct (atoi t) as [n|] eqn:E; [|reflexivity]. apply atoi_exactly in E. exfalso. exact (H n E).
Qed.

(* ---------------------------------------------------------------- C06 *)
Definition white_heads : list byte := map (fun w => hd x00 w) white_spaces.
Lemma white_tail : forall w e c t, In w white_spaces -> w = e ++ c :: t -> e <> [] -> ~ In c white_heads.
Proof.
  intros w e c t Hw E He Hc.
  assert (G : forallb (fun w => forallb (fun c => negb (existsb (Byte.eqb c) white_heads)) (tl w)) white_spaces = true) by (vm_compute; reflexivity).
  rewrite forallb_forall in G. specialize (G w Hw). rewrite forallb_forall in G. destruct e as [|x e]; [congruence|]. rewrite E in G. cbn [tl app] in G.
  specialize (G c ltac:(apply in_or_app; right; left; reflexivity)). apply Bool.negb_true_iff in G. rewrite <- Bool.not_true_iff_false in G. apply G.
  apply existsb_exists. exists c. split; [exact Hc|apply Byte.byte_dec_lb; reflexivity].
Qed.
Lemma white_free : forall w w' r, In w white_spaces -> In w' white_spaces -> w' = w ++ r -> w' = w.
Proof.
  intros w w' r H H' E.
  assert (G : forallb (fun w => forallb (fun w' => negb (has_prefix w' w) || beqb w' w) white_spaces) white_spaces = true) by (vm_compute; reflexivity).
  rewrite forallb_forall in G. specialize (G w H). rewrite forallb_forall in G. specialize (G w' H').
  apply Bool.orb_true_iff in G. destruct G as [G|G]; [|apply beqb_eq; exact G]. apply Bool.negb_true_iff in G. rewrite <- Bool.not_true_iff_false in G. exfalso. apply G. apply has_prefix_iff. exists r. exact E.
Qed.
Lemma white_nonempty : forall w, In w white_spaces -> w <> [].
Proof.
  intros w H. assert (G : forallb nonempty white_spaces = true) by (vm_compute; reflexivity). rewrite forallb_forall in G. specialize (G w H). destruct w; discriminate.
Qed.
Lemma white_code : forall w w' r r', In w white_spaces -> In w' white_spaces -> w ++ r = w' ++ r' -> w = w' /\ r = r'.
Proof.
  intros w w' r r' H H' E. assert (X : w = w').
  { destruct (app_eq_app _ _ _ _ E) as (l & [[E1 E2]|[E1 E2]]).
    - exact (white_free _ _ _ H' H E1).
    - symmetry. exact (white_free _ _ _ H H' E1). }
  split; [exact X|]. subst w'. apply app_inv_head in E. exact E.
Qed.
Lemma white_app : forall a b, White a -> White b -> White (a ++ b).
Proof. induction 1; intros; cbn [app]; [assumption|]. rewrite <- app_assoc. constructor; auto. Qed.
Lemma white_one : forall w, In w white_spaces -> White w.
Proof. intros w H. rewrite <- (app_nil_r w). constructor; [exact H|constructor]. Qed.
Lemma white_end : forall a, White a -> a <> [] -> exists m w, a = m ++ w /\ In w white_spaces /\ White m.
Proof.
  induction 1 as [|w s Hw Hs IH]; intros Hn; [congruence|]. destruct s as [|c s].
  - exists [], w. split; [rewrite app_nil_r; reflexivity|]. split; [exact Hw|constructor].
  - destruct (IH ltac:(discriminate)) as (m & w' & -> & Hw' & Hm). exists (w ++ m), w'. split; [rewrite <- app_assoc; reflexivity|]. split; [exact Hw'|constructor; assumption].
Qed.
Lemma white_cancel : forall a y, White a -> White (a ++ y) -> White y.
Proof.
  induction 1 as [|w s Hw Hs IH]; intros H; [exact H|]. apply IH. rewrite <- app_assoc in H. inversion H as [E|w' s' Hw' Hs' E].
  - destruct w; [exfalso; exact (white_nonempty _ Hw eq_refl)|discriminate E].
  - destruct (white_code _ _ _ _ Hw' Hw E) as [_ ->]. exact Hs'.
Qed.
Lemma white_head : forall b c t, White b -> b = c :: t -> In c white_heads.
Proof.
  intros b c t H E. inversion H as [E'|w s Hw Hs E']; subst; [discriminate|]. destruct w as [|x w]; [exfalso; exact (white_nonempty _ Hw eq_refl)|].
  injection E' as -> _. unfold white_heads. apply (in_map (fun w => hd x00 w) _ _ Hw).
Qed.
Lemma white_before : forall b', White b' -> forall m b, b' = m ++ b -> White b -> White m.
Proof.
  induction 1 as [|w s Hw Hs IH]; intros m b E Hb.
  - destruct m; [constructor|discriminate].
  - destruct (app_eq_app _ _ _ _ E) as (l & [[E1 E2]|[E1 E2]]).
    + (* w = m ++ l, b = l ++ s *) destruct m as [|x m]; [constructor|]. destruct l as [|c l].
      * rewrite app_nil_r in E1. rewrite <- E1. apply white_one. exact Hw.
      * exfalso. apply (white_tail _ (x :: m) c l Hw E1 ltac:(discriminate)). exact (white_head _ c (l ++ s) Hb E2).
    + rewrite E1. constructor; [exact Hw|]. exact (IH l b E2 Hb).
Qed.
Definition no_white_first (x : bytes) : Prop := forall w r, In w white_spaces -> x <> w ++ r.
Lemma no_white_app : forall e b, e <> [] -> no_white_first e -> White b -> no_white_first (e ++ b).
Proof.
  intros e b He Hf Hb w r Hw E. destruct (app_eq_app _ _ _ _ E) as (l & [[E1 E2]|[E1 E2]]).
  - exact (Hf w l Hw E1).
  - destruct l as [|c l]; [rewrite app_nil_r in E1; apply (Hf w [] Hw); rewrite app_nil_r; symmetry; exact E1|].
    apply (white_tail _ e c l Hw E1 He). exact (white_head _ c (l ++ r) Hb E2).
Qed.
Lemma white_same : forall a, White a -> forall a' x x', White a' -> no_white_first x -> no_white_first x' -> a ++ x = a' ++ x' -> a = a'.
Proof.
  induction 1 as [|w s Hw Hs IH]; intros a' x x' Ha' Hx Hx' E.
  - inversion Ha' as [|w s Hw Hs E']; [reflexivity|]. subst a'. exfalso. cbn [app] in E. rewrite <- app_assoc in E. exact (Hx w _ Hw E).
  - inversion Ha' as [E'|w' s' Hw' Hs' E']; subst a'; rewrite <- app_assoc in E.
    + exfalso. cbn [app] in E. symmetry in E. exact (Hx' w _ Hw E).
    + rewrite <- app_assoc in E. destruct (white_code _ _ _ _ Hw Hw' E) as [-> E2]. f_equal. exact (IH s' x x' Hs' Hx Hx' E2).
Qed.
Lemma trimmed_empty : forall s e, Trimmed s [] -> Trimmed s e -> e = [].
Proof.
  intros s e ((a & b & -> & Ha & Hb) & _ & _) ((a' & b' & E & Ha' & Hb') & Hf & _). cbn [app] in E.
  assert (W : White (e ++ b')) by (apply (white_cancel a'); [exact Ha'|]; rewrite <- E; apply white_app; assumption).
  destruct e as [|c e]; [reflexivity|]. exfalso. pose proof (no_white_app (c :: e) b' ltac:(discriminate) Hf Hb') as N.
  inversion W as [|w s Hw Hs E2]. exact (N w s Hw (eq_sym E2)).
Qed.
Lemma trimmed_ends : forall e b e' b', White b -> White b' -> (forall w r, In w white_spaces -> e <> r ++ w) -> (forall w r, In w white_spaces -> e' <> r ++ w) ->
  e ++ b = e' ++ b' -> e = e'.
Proof.
  assert (G : forall e b e' b' m, White b -> White b' -> (forall w r, In w white_spaces -> e <> r ++ w) -> e = e' ++ m -> b' = m ++ b -> e = e').
  { intros e b e' b' m Hb Hb' He E1 E2. pose proof (white_before b' Hb' m b E2 Hb) as W. destruct m as [|c m]; [rewrite app_nil_r in E1; exact E1|]. exfalso.
    destruct (white_end _ W ltac:(discriminate)) as (m' & w & E3 & Hw & _). apply (He w (e' ++ m') Hw). rewrite E1, E3, app_assoc. reflexivity. }
  intros e b e' b' Hb Hb' He He' E. destruct (app_eq_app _ _ _ _ E) as (l & [[E1 E2]|[E1 E2]]).
  - exact (G e b e' b' l Hb Hb' He E1 E2).
  - symmetry. exact (G e' b' e b l Hb' Hb He' E1 E2).
Qed.
Lemma trimmed_once : forall s e e', Trimmed s e -> Trimmed s e' -> e = e'.
Proof.
  intros s e e' T T'. destruct e as [|c e]; [symmetry; exact (trimmed_empty s e' T T')|]. destruct e' as [|c' e']; [exact (trimmed_empty s _ T' T)|].
  destruct T as ((a & b & -> & Ha & Hb) & Hf & Hl). destruct T' as ((a' & b' & E & Ha' & Hb') & Hf' & Hl').
  assert (X : a = a') by (apply (white_same a Ha a' ((c :: e) ++ b) ((c' :: e') ++ b') Ha'); [apply no_white_app; [discriminate|exact Hf|exact Hb]|apply no_white_app; [discriminate|exact Hf'|exact Hb']|exact E]).
  subst a'. apply app_inv_head in E. exact (trimmed_ends _ _ _ _ Hb Hb' Hl Hl' E).
Qed.
Lemma strip_one_some : forall encs l l', strip_one encs l = Some l' -> exists w, In w encs /\ l = w ++ l'.
Proof.
  induction encs as [|e encs IH]; intros l l' H; cbn [strip_one] in H; [discriminate|]. destruct (has_prefix l e) eqn:E.
  - injection H as <-. apply has_prefix_iff in E. destruct E as (r & ->). exists e. split; [left; reflexivity|]. rewrite skipn_app, skipn_all, Nat.sub_diag. reflexivity.
  - destruct (IH l l' H) as (w & Hw & El). exists w. split; [right; exact Hw|exact El].
Qed.
Lemma strip_one_none : forall encs l, strip_one encs l = None -> forall w r, In w encs -> l <> w ++ r.
Proof.
  induction encs as [|e encs IH]; intros l H w r Hw El; [destruct Hw|]. cbn [strip_one] in H. destruct (has_prefix l e) eqn:E; [discriminate|].
  destruct Hw as [->|Hw]; [|exact (IH l H w r Hw El)]. rewrite <- Bool.not_true_iff_false in E. apply E. apply has_prefix_iff. exists r. exact El.
Qed.
Inductive Star (encs : list bytes) : bytes -> Prop :=
| St_nil : Star encs []
| St_more : forall w s, In w encs -> Star encs s -> Star encs (w ++ s).
Lemma strip_all_spec : forall encs, (forall w, In w encs -> w <> []) -> forall f l, (List.length l <= f)%nat ->
  exists a, l = a ++ strip_all f encs l /\ Star encs a /\ forall w r, In w encs -> strip_all f encs l <> w ++ r.
Proof.
  intros encs Hne. induction f as [|f IH]; intros l Hl; cbn [strip_all].
  - destruct l; [|cbn in Hl; lia]. exists []. split; [reflexivity|]. split; [constructor|]. intros w r Hw E. destruct w; [exact (Hne _ Hw eq_refl)|discriminate].
  - destruct (strip_one encs l) as [l'|] eqn:E.
    + destruct (strip_one_some _ _ _ E) as (w & Hw & ->). assert (w <> []) by (apply Hne; exact Hw). destruct (IH l') as (a & Ea & Ha & Hn).
      { rewrite app_length in Hl. destruct w; [congruence|cbn in Hl; lia]. }
      exists (w ++ a). split; [rewrite <- app_assoc, <- Ea; reflexivity|]. split; [constructor; assumption|exact Hn].
    + exists []. split; [reflexivity|]. split; [constructor|]. exact (strip_one_none _ _ E).
Qed.
Lemma star_white : forall a, Star space_encodings a -> White a.
Proof. induction 1; [constructor|]. constructor; assumption. Qed.
Lemma star_white_rev : forall a, Star (map (@rev byte) space_encodings) a -> White (rev a).
Proof.
  induction 1 as [|w s Hw Hs IH]; [constructor|]. rewrite rev_app_distr. apply white_app; [exact IH|]. apply in_map_iff in Hw. destruct Hw as (x & <- & Hx). rewrite rev_involutive. apply white_one. exact Hx.
Qed.
Lemma trim_trimmed : forall s, Trimmed s (trim_space s).
Proof.
  intros s. unfold trim_space, trim_right_space, trim_left_space.
  destruct (strip_all_spec space_encodings white_nonempty (List.length s) s (le_n _)) as (a & Ea & Ha & Hn).
  set (m := strip_all (List.length s) space_encodings s) in *.
  assert (Hne : forall w, In w (map (@rev byte) space_encodings) -> w <> []).
  { intros w Hw. apply in_map_iff in Hw. destruct Hw as (x & <- & Hx). intro E. apply (white_nonempty x Hx). rewrite <- (rev_involutive x), E. reflexivity. }
  destruct (strip_all_spec _ Hne (List.length m) (rev m)) as (b & Eb & Hb & Hr); [rewrite rev_length; apply le_n|].
  set (e := strip_all (List.length m) (map (@rev byte) space_encodings) (rev m)) in *.
  assert (Em : m = rev e ++ rev b) by (rewrite <- rev_app_distr, <- Eb, rev_involutive; reflexivity).
  split; [|split].
  - exists a, (rev b). split; [rewrite <- Em; exact Ea|]. split; [apply star_white; exact Ha|apply star_white_rev; exact Hb].
  - intros w r Hw E. apply (Hn w (r ++ rev b) Hw). rewrite Em, E, <- app_assoc. reflexivity.
  - intros w r Hw E. apply (Hr (rev w) (rev r)); [apply in_map; exact Hw|]. rewrite <- rev_app_distr, <- E, rev_involutive. reflexivity.
Qed.
Lemma trim_exactly : forall s e, trim_space s = e <-> Trimmed s e.
Proof. intros s e. split; [intros <-; apply trim_trimmed|]. intros H. exact (trimmed_once s _ _ (trim_trimmed s) H). Qed.
Lemma elements_exactly : forall v l, list_elements v = l <-> Elements v l.
Proof.
  assert (K : forall p, filter nonempty [trim_space p] = kept (trim_space p)) by (intros p; cbn; destruct (trim_space p); reflexivity).
  assert (Step : forall a b, ~ In x2c a -> list_elements (a ++ x2c :: b) = kept (trim_space a) ++ list_elements b).
  { intros a b Hn. unfold list_elements. rewrite split_on_cut, cut_app by exact Hn. cbn [map filter]. destruct (trim_space a); reflexivity. }
  assert (Last : forall p, ~ In x2c p -> list_elements p = kept (trim_space p)).
  { intros p Hn. unfold list_elements. rewrite split_on_cut. apply cut_none in Hn. rewrite Hn. apply K. }
  intros v l. split.
  - revert v l. assert (G : forall n v, (List.length v <= n)%nat -> Elements v (list_elements v)).
    { induction n as [|n IH]; intros v Hv.
      - destruct v; [|cbn in Hv; lia]. rewrite Last by (intros []). apply El_last; [intros []|apply trim_trimmed].
      - destruct (cut_dec v x2c) as [Hno|(a & b & -> & Ha)]; [rewrite Last by exact Hno; apply El_last; [exact Hno|apply trim_trimmed]|].
        rewrite Step by exact Ha. apply El_more; [exact Ha|apply trim_trimmed|]. apply IH. rewrite app_length in Hv. cbn in Hv. lia. }
    intros v l <-. exact (G _ v (le_n _)).
  - induction 1 as [p e Hn T|p e s l Hn T H IH].
    + apply trim_exactly in T. rewrite Last by exact Hn. rewrite T. reflexivity.
    + apply trim_exactly in T. rewrite Step by exact Hn. rewrite T, IH. reflexivity.
Qed.
