(* The request head parser: independence of TCP segmentation for well-formed heads. *)
From Verif Require Import M_Base L_Base M_Status M_Method M_Proto M_Uri M_KeyValue M_Query M_Request
  M_Parser S_Head S_Parser L_Uri.

Local Arguments cut : simpl never.

(* ---- splitting a concatenation at a separator ---- *)
Lemma app_split : forall (A : Type) (d r a b : list A), d ++ r = a ++ b ->
  (exists m, a = d ++ m /\ r = m ++ b) \/ (exists m, m <> [] /\ d = a ++ m /\ b = m ++ r).
Proof.
  intros A d. induction d as [|x d IH]; intros r a b H; simpl in H.
  - left. exists a. split; [reflexivity|exact H].
  - destruct a as [|y a]; simpl in H.
    + right. exists (x :: d). split; [discriminate|]. split; [reflexivity|]. symmetry. exact H.
    + injection H as -> H. destruct (IH _ _ _ H) as [(m & -> & ->)|(m & Hm & -> & ->)].
      * left. exists m. split; reflexivity.
      * right. exists m. split; [exact Hm|]. split; reflexivity.
Qed.

Lemma split_sep : forall (d r a : bytes) c b, d ++ r = a ++ c :: b -> ~ In c a ->
  (exists a2, a = d ++ a2 /\ r = a2 ++ c :: b /\ cut d c = None) \/
  (exists d', d = a ++ c :: d' /\ b = d' ++ r /\ cut d c = Some (a, d')).
Proof.
  intros d r a c b H Hn. destruct (app_split _ _ _ _ _ H) as [(m & -> & ->)|(m & Hm & -> & Hb)].
  - left. exists m. repeat split. apply cut_none. intro Hi. apply Hn. apply in_or_app. left. exact Hi.
  - right. destruct m as [|x m]; [contradiction|]. simpl in Hb. injection Hb as <- ->.
    exists m. repeat split. apply cut_app. exact Hn.
Qed.

Lemma len_app : forall a b, len (a ++ b) = (len a + len b)%Z.
Proof. intros. unfold len. rewrite app_length. lia. Qed.
Lemma len_nil : len [] = 0%Z. Proof. reflexivity. Qed.
Lemma len_cons : forall x l, len (x :: l) = (1 + len l)%Z.
Proof. intros. unfold len. simpl List.length. lia. Qed.
Lemma len_nonneg : forall l, (0 <= len l)%Z. Proof. intro. unfold len. lia. Qed.

Lemma buf_append_ok : forall dn sg mx d, (len dn + len sg + len d <= mx)%Z ->
  buf_append (Buffer dn sg mx) d = Some (Buffer dn (sg ++ d) mx).
Proof.
  intros. unfold buf_append. simpl. destruct (Z.gtb_spec (len dn + len sg + len d) mx); [lia|reflexivity].
Qed.

(* ---- the digit loop ---- *)
Definition dig_or_sp (c : byte) : Prop := c = SP \/ is_digit c = true.

Lemma clen_loop_app : forall ds n d, Forall dig_or_sp ds ->
  clen_loop n (ds ++ d) = clen_loop (fst (clen_loop n ds)) d.
Proof.
  induction ds as [|c ds IH]; intros n d H; [reflexivity|].
  inversion H as [|c' ds' Hc Hds]. subst. simpl.
  destruct (Byte.eqb c SP) eqn:E; [apply IH; exact Hds|].
  destruct Hc as [->|Hc]; [rewrite beq_refl in E; discriminate|].
  rewrite Hc. apply IH. exact Hds.
Qed.

Lemma clen_loop_all : forall ds n, Forall dig_or_sp ds ->
  clen_loop n ds = (fst (clen_loop n ds), None).
Proof.
  induction ds as [|c ds IH]; intros n H; [reflexivity|].
  inversion H as [|c' ds' Hc Hds]. subst. simpl.
  destruct (Byte.eqb c SP) eqn:E; [apply IH; exact Hds|].
  destruct Hc as [->|Hc]; [rewrite beq_refl in E; discriminate|].
  rewrite Hc. apply IH. exact Hds.
Qed.

Section Expect.
Variable cfg : hcfg.
Variables umax kmax vmax : Z.
Variable R : request.    (* the request the head denotes *)

Definition LineOK (line : bytes) (f : request -> request) : Prop :=
  forall p, request_line p line = inr (set_p_req (f (p_req p)) p).

Definition key_ok (k : bytes) : Prop := ~ In x3a k /\ ~ In CR k /\ ~ In LF k.

(* [HK n ku vu seen r hs]: with n headers, ku and vu bytes of keys and values already used,
   request r so far, and no Content-Length seen yet unless [seen], the remaining head hs is
   well-formed, within the limits, and leads to R. *)
Inductive HK : Z -> Z -> Z -> bool -> request -> bytes -> Prop :=
| HK_end : forall n ku vu seen crlf, HK n ku vu seen R (eol crlf)
| HK_val : forall n ku vu seen r k raw c hs,
    key_ok k -> key_is k (B "content-length") = false ->
    (n + 1 <= c_max_headers cfg)%Z -> (ku + len k <= kmax)%Z ->
    ~ In LF raw -> (vu + len raw <= vmax)%Z -> (len raw <= c_max_value cfg)%Z ->
    last_byte (trim_prefix_spaces raw) = Some c ->
    HK (n + 1) (ku + len k) (vu + len raw) seen
       (apply_header cfg k (if Byte.eqb c CR then drop_last (trim_prefix_spaces raw)
                            else trim_prefix_spaces raw) r) hs ->
    HK n ku vu seen r (k ++ x3a :: raw ++ LF :: hs)
| HK_cl : forall n ku vu r k ds crlf hs,
    key_ok k -> key_is k (B "content-length") = true ->
    (n + 1 <= c_max_headers cfg)%Z -> (ku + len k <= kmax)%Z ->
    Forall dig_or_sp ds ->
    HK (n + 1) (ku + len k) vu true (set_content_length (fst (clen_loop 0 ds)) r) hs ->
    HK n ku vu false r (k ++ x3a :: ds ++ eol crlf ++ hs).

Definition HInv (p : parser) (n ku vu : Z) (seen : bool) (kseg vseg : bytes) : Prop :=
  p_hnum p = n /\
  (exists kd, p_key p = Buffer kd kseg kmax /\ len kd = ku) /\
  (exists vd, p_val p = Buffer vd vseg vmax /\ len vd = vu) /\
  b_max (p_start p) = umax /\
  (seen = false -> p_clen p = 0%Z).

Ltac hinv := match goal with H : HInv _ _ _ _ _ _ _ |- HInv _ _ _ _ _ _ _ =>
  destruct H as (? & ? & ? & ? & ?); unfold HInv; simpl; repeat split; try assumption; try discriminate end.

Inductive Expect : pstate -> parser -> bytes -> Prop :=
| X_method : forall p m1 m2 m line f hs,
    p_state p = eMethod -> p_start p = Buffer [] m1 umax ->
    m1 ++ m2 = method_token m -> m <> MUnknown ->
    LineOK line f -> ~ In LF line -> (len (method_token m) + len line <= umax)%Z ->
    HInv p 0 0 0 false [] [] -> HK 0 0 0 false (f (set_method m (p_req p))) hs ->
    Expect eMethod p (m2 ++ SP :: line ++ LF :: hs)
| X_path : forall p sd a1 a2 f hs,
    p_start p = Buffer sd a1 umax -> (len sd + len (a1 ++ a2) <= umax)%Z ->
    LineOK (a1 ++ a2) f -> ~ In LF (a1 ++ a2) ->
    HInv p 0 0 0 false [] [] -> HK 0 0 0 false (f (p_req p)) hs ->
    Expect ePath p (a2 ++ LF :: hs)
| X_key : forall p n ku vu seen k1 rest,
    HInv p n ku vu seen k1 [] -> HK n ku vu seen (p_req p) (k1 ++ rest) ->
    (k1 <> [] -> exists k2 rest', rest = k2 ++ x3a :: rest' /\ key_ok (k1 ++ k2)) ->
    Expect eHeaderKey p rest
| X_val : forall p n ku vu seen v1 v2 c hs,
    HInv p n ku vu seen [] v1 ->
    ~ In LF (v1 ++ v2) -> (vu + len (v1 ++ v2) <= vmax)%Z -> (len (v1 ++ v2) <= c_max_value cfg)%Z ->
    last_byte (trim_prefix_spaces (v1 ++ v2)) = Some c ->
    HK n ku (vu + len (v1 ++ v2)) seen
       (apply_header cfg (p_hkey p) (if Byte.eqb c CR then drop_last (trim_prefix_spaces (v1 ++ v2))
                                     else trim_prefix_spaces (v1 ++ v2)) (p_req p)) hs ->
    Expect eHeaderValue p (v2 ++ LF :: hs)
| X_cl : forall p n ku vu ds crlf hs,
    HInv p n ku vu true [] [] -> Forall dig_or_sp ds ->
    HK n ku vu true (set_content_length (fst (clen_loop (p_clen p) ds)) (p_req p)) hs ->
    Expect eContentLength p (ds ++ eol crlf ++ hs)
| X_clcr : forall p n ku vu hs,
    HInv p n ku vu true [] [] -> HK n ku vu true (p_req p) hs ->
    Expect eContentLengthCR p (LF :: hs)
| X_end : forall p n ku vu seen,
    HInv p n ku vu seen [] [] -> p_req p = R -> Expect eHeaderValueCRLFCR p [LF].

Lemma cleanup_ready : forall p n ku vu seen kseg vseg,
  HInv p n ku vu seen kseg vseg -> Ready umax kmax vmax (cleanup p) /\ p_req (cleanup p) = p_req p.
Proof.
  intros p n ku vu seen kseg vseg (Hn & (kd & Hk & _) & (vd & Hv & _) & Hu & _).
  unfold cleanup, Ready. simpl. rewrite Hk, Hv. unfold buf_clear. simpl. rewrite Hu. tauto.
Qed.

Lemma method_token_nosp : forall m, ~ In SP (method_token m).
Proof. intros m H. destruct m; vm_compute in H; intuition discriminate. Qed.

Lemma method_parse_token : forall m, m <> MUnknown -> method_parse (method_token m) = m.
Proof. intros m H. destruct m; try reflexivity; contradiction. Qed.

Lemma method_token_nonempty : forall m, m <> MUnknown -> method_token m <> [].
Proof. intros m H. destruct m; try discriminate; contradiction. Qed.

Lemma HK_nonempty : forall n ku vu seen r hs, HK n ku vu seen r hs -> hs <> [].
Proof.
  intros n ku vu seen r hs H. destruct H as [? ? ? ? crlf| | ].
  - destruct crlf; discriminate.
  - destruct k; discriminate.
  - destruct k; discriminate.
Qed.

Lemma Expect_nonempty : forall l p rest, Expect l p rest -> rest <> [].
Proof.
  intros l p rest H. destruct H as [p m1 m2 m line f hs|p sd a1 a2 f hs|p n ku vu seen k1 rest Hi Hk Hx
    |p n ku vu seen v1 v2 c hs|p n ku vu ds crlf hs|p n ku vu hs|p n ku vu seen].
  - destruct m2; discriminate.
  - destruct a2; discriminate.
  - destruct k1 as [|x k1].
    + apply HK_nonempty in Hk. exact Hk.
    + destruct Hx as (k2 & rest' & -> & _); [discriminate|]. destruct k2; discriminate.
  - destruct v2; discriminate.
  - destruct ds; [destruct crlf; discriminate|discriminate].
  - discriminate.
  - discriminate.
Qed.

(* outcome of one step when the data ends before (or at) a point inside the head *)
Definition stepA (l : pstate) (p : parser) (d r : bytes) : Prop :=
  (exists l' p' d', step cfg l p d = Goto l' p' d' /\ Expect l' p' (d' ++ r) /\
                    (List.length d' < List.length d)%nat) \/
  (exists p', step cfg l p d = Ret (RPending p') /\ Expect (p_state p') p' r).
(* outcome of one step when the data contains the whole head *)
Definition stepB (l : pstate) (p : parser) (rest tail : bytes) : Prop :=
  (exists l' p' rest', step cfg l p (rest ++ tail) = Goto l' p' (rest' ++ tail) /\
                       Expect l' p' rest' /\ (List.length rest' < List.length rest)%nat) \/
  (exists p', step cfg l p (rest ++ tail) = Ret (RDone p' tail) /\ Ready umax kmax vmax p' /\ p_req p' = R).

(* --- method --- *)
Lemma method_goto : forall p m1 m2 m line f hs d',
  p_start p = Buffer [] m1 umax ->
  m1 ++ m2 = method_token m -> m <> MUnknown ->
  LineOK line f -> ~ In LF line -> (len (method_token m) + len line <= umax)%Z ->
  HInv p 0 0 0 false [] [] -> HK 0 0 0 false (f (set_method m (p_req p))) hs ->
  exists p', step cfg eMethod p (m2 ++ SP :: d') = Goto ePath p' d' /\
             Expect ePath p' (line ++ LF :: hs).
Proof.
  intros p m1 m2 m line f hs d' Hs Hm Hu Hl Hlf Hle Hi Hk.
  assert (Hn2 : ~ In SP m2).
  { intro H. apply (method_token_nosp m). rewrite <- Hm. apply in_or_app. right. exact H. }
  simpl. unfold step_method. rewrite cut_app by exact Hn2.
  rewrite Hs. unfold buf_seglen. simpl.
  destruct m1 as [|x m1].
  - simpl in Hm. subst m2. simpl.
    destruct (method_token m) as [|y tk] eqn:Et; [destruct (method_token_nonempty m Hu Et)|].
    rewrite <- Et. rewrite method_parse_token by exact Hu.
    exists (set_p_req (set_method m (p_req p)) p). split.
    + destruct m; try reflexivity; contradiction.
    + change (line ++ LF :: hs) with (line ++ LF :: hs).
      apply X_path with (sd := []) (a1 := []) (f := f).
      * simpl. exact Hs.
      * rewrite len_nil. simpl. pose proof (len_nonneg (y :: tk)). lia.
      * simpl. exact Hl.
      * simpl. exact Hlf.
      * exact Hi.
      * simpl. exact Hk.
  - destruct (len (x :: m1) =? 0)%Z eqn:Ez;
      [apply Z.eqb_eq in Ez; rewrite len_cons in Ez; pose proof (len_nonneg m1); lia|].
    assert (Hlm : (len (x :: m1) + len m2 = len (method_token m))%Z)
      by (rewrite <- Hm, len_app; reflexivity).
    pose proof (len_nonneg line).
    rewrite buf_append_ok by (rewrite len_nil; lia).
    unfold buf_finish. simpl (b_seg _). simpl (b_done _). simpl (b_max _). change (x :: m1 ++ m2) with ((x :: m1) ++ m2). rewrite Hm.
    destruct (method_token m) as [|y tk] eqn:Et; [destruct (method_token_nonempty m Hu Et)|].
    rewrite <- Et in *. rewrite method_parse_token by exact Hu.
    simpl (p_req _).
    exists (set_p_req (set_method m (p_req p)) (set_p_start (Buffer (method_token m) [] umax) p)). split.
    + destruct m; try reflexivity; contradiction.
    + apply X_path with (sd := method_token m) (a1 := []) (f := f).
      * reflexivity.
      * simpl. lia.
      * simpl. exact Hl.
      * simpl. exact Hlf.
      * destruct Hi as (Hn & Hkk & Hv & Hum & Hc). unfold HInv. simpl. tauto.
      * simpl. exact Hk.
Qed.

(* --- path --- *)
Lemma path_goto : forall p sd a1 a2 f hs d',
  p_start p = Buffer sd a1 umax -> (len sd + len (a1 ++ a2) <= umax)%Z ->
  LineOK (a1 ++ a2) f -> ~ In LF (a1 ++ a2) ->
  HInv p 0 0 0 false [] [] -> HK 0 0 0 false (f (p_req p)) hs ->
  exists p', step cfg ePath p (a2 ++ LF :: d') = Goto eHeaderKey p' d' /\
             Expect eHeaderKey p' hs.
Proof.
  intros p sd a1 a2 f hs d' Hs Hle Hl Hlf Hi Hk. simpl. unfold step_path.
  rewrite cut_app by (intro H; apply Hlf; apply in_or_app; right; exact H).
  rewrite Hs. rewrite len_app in Hle. rewrite buf_append_ok by lia.
  unfold buf_finish. simpl (b_seg _). simpl (b_done _). simpl (b_max _).
  rewrite Hl. eexists. split; [reflexivity|].
  apply X_key with (n := 0%Z) (ku := 0%Z) (vu := 0%Z) (seen := false) (k1 := []).
  - destruct Hi as (Hn & Hkk & Hv & Hum & Hc). unfold HInv. simpl. tauto.
  - simpl. exact Hk.
  - intro H. contradiction.
Qed.

(* --- header key --- *)
Lemma key_first : forall k rest c data', key_ok k -> k ++ x3a :: rest = c :: data' ->
  Byte.eqb c LF = false /\ Byte.eqb c CR = false.
Proof.
  intros k rest c data' (Hc & Hcr & Hlf) H. split; apply beq_neq; intros ->.
  - destruct k as [|y k]; [discriminate|]. injection H as -> H. apply Hlf. left. reflexivity.
  - destruct k as [|y k]; [discriminate|]. injection H as -> H. apply Hcr. left. reflexivity.
Qed.

Lemma hk_line_inv : forall n ku vu seen r k rest, key_ok k -> HK n ku vu seen r (k ++ x3a :: rest) ->
  (n + 1 <= c_max_headers cfg)%Z /\ (ku + len k <= kmax)%Z /\
  ((exists raw c hs, rest = raw ++ LF :: hs /\ key_is k (B "content-length") = false /\
     ~ In LF raw /\ (vu + len raw <= vmax)%Z /\ (len raw <= c_max_value cfg)%Z /\
     last_byte (trim_prefix_spaces raw) = Some c /\
     HK (n + 1) (ku + len k) (vu + len raw) seen
       (apply_header cfg k (if Byte.eqb c CR then drop_last (trim_prefix_spaces raw)
                            else trim_prefix_spaces raw) r) hs) \/
   (exists ds crlf hs, rest = ds ++ eol crlf ++ hs /\ key_is k (B "content-length") = true /\
     seen = false /\ Forall dig_or_sp ds /\
     HK (n + 1) (ku + len k) vu true (set_content_length (fst (clen_loop 0 ds)) r) hs)).
Proof.
  intros n ku vu seen r k rest Hok H.
  remember (k ++ x3a :: rest) as all eqn:Ea.
  destruct H as [n ku vu seen crlf
                |n ku vu seen r k' raw c hs Hk' Hci Hn Hku Hlf Hvu Hmv Hlast Hhk
                |n ku vu r k' ds crlf hs Hk' Hci Hn Hku Hds Hhk].
  - exfalso. destruct Hok as (Hc & Hcr & Hlf). destruct crlf; simpl in Ea.
    + destruct k as [|y k]; [discriminate|]. injection Ea as <- _. apply Hcr. left. reflexivity.
    + destruct k as [|y k]; [discriminate|]. injection Ea as <- _. apply Hlf. left. reflexivity.
  - destruct Hk' as (Hc' & Hk'). destruct Hok as (Hc & Hok).
    assert (Heq : cut (k ++ x3a :: rest) x3a = Some (k, rest)) by (apply cut_app; exact Hc).
    rewrite <- Ea, cut_app in Heq by exact Hc'. injection Heq as <- <-.
    split; [exact Hn|]. split; [exact Hku|]. left. exists raw, c, hs. repeat split; assumption.
  - destruct Hk' as (Hc' & Hk'). destruct Hok as (Hc & Hok).
    assert (Heq : cut (k ++ x3a :: rest) x3a = Some (k, rest)) by (apply cut_app; exact Hc).
    rewrite <- Ea, cut_app in Heq by exact Hc'. injection Heq as <- <-.
    split; [exact Hn|]. split; [exact Hku|]. right. exists ds, crlf, hs. repeat split; assumption.
Qed.

Lemma hk_cases : forall n ku vu seen r hs, HK n ku vu seen r hs ->
  (r = R /\ exists crlf, hs = eol crlf) \/ (exists k rest, key_ok k /\ hs = k ++ x3a :: rest).
Proof.
  intros n ku vu seen r hs H. destruct H.
  - left. split; [reflexivity|]. eexists. reflexivity.
  - right. eexists _, _. split; [eassumption|reflexivity].
  - right. eexists _, _. split; [eassumption|reflexivity].
Qed.

Lemma key_goto : forall p n ku vu seen k1 k2 rest d',
  HInv p n ku vu seen k1 [] -> HK n ku vu seen (p_req p) (k1 ++ k2 ++ x3a :: rest) ->
  key_ok (k1 ++ k2) ->
  exists l' p', step cfg eHeaderKey p (k2 ++ x3a :: d') = Goto l' p' d' /\ Expect l' p' rest.
Proof.
  intros p n ku vu seen k1 k2 rest d' Hi Hk Hok.
  rewrite app_assoc in Hk. apply hk_line_inv in Hk; [|exact Hok].
  destruct Hk as (Hn & Hku & Hcase).
  destruct Hi as (Hn0 & (kd & Hkb & Hkd) & (vd & Hvb & Hvd) & Hum & Hcl).
  assert (Hok2 : key_ok k2).
  { destruct Hok as (H1 & H2 & H3). repeat split; intro H; [apply H1|apply H2|apply H3];
      apply in_or_app; right; exact H. }
  simpl. unfold step_header_key.
  destruct (k2 ++ x3a :: d') as [|c data'] eqn:Ed; [destruct k2; discriminate|].
  destruct (key_first _ _ _ _ Hok2 Ed) as [-> ->]. rewrite <- Ed.
  rewrite cut_app by (apply Hok2). rewrite Hkb. rewrite len_app in Hku.
  rewrite buf_append_ok by lia. unfold buf_finish. simpl (b_seg _). simpl (b_done _). simpl (b_max _).
  cbn zeta. simpl (p_hnum _). rewrite Hn0.
  destruct (Z.gtb_spec (n + 1) (c_max_headers cfg)) as [Hgt|_]; [lia|].
  destruct Hcase as [(raw & c' & hs & Hrest & Hci & Hlf & Hvu & Hmv & Hlast & Hhk)
                    |(ds & crlf & hs & Hrest & Hci & Hseen & Hds & Hhk)].
  - rewrite Hci. eexists _, _. split; [reflexivity|]. rewrite Hrest.
    apply X_val with (n := (n + 1)%Z) (ku := (ku + len (k1 ++ k2))%Z) (vu := vu) (seen := seen)
                     (v1 := []) (c := c').
    + unfold HInv. simpl. repeat split.
      * exists (kd ++ k1 ++ k2). split; [reflexivity|]. rewrite !len_app. rewrite Hkd. lia.
      * exists vd. split; assumption.
      * exact Hum.
      * exact Hcl.
    + exact Hlf.
    + exact Hvu.
    + exact Hmv.
    + exact Hlast.
    + simpl. exact Hhk.
  - rewrite Hci. eexists _, _. split; [reflexivity|]. rewrite Hrest.
    apply X_cl with (n := (n + 1)%Z) (ku := (ku + len (k1 ++ k2))%Z) (vu := vu).
    + unfold HInv. simpl. repeat split.
      * exists (kd ++ k1 ++ k2). split; [reflexivity|]. rewrite !len_app. rewrite Hkd. lia.
      * exists vd. split; assumption.
      * exact Hum.
      * discriminate.
    + exact Hds.
    + simpl. rewrite (Hcl Hseen). exact Hhk.
Qed.

(* --- header value --- *)
Lemma val_goto : forall p n ku vu seen v1 v2 c hs d',
  HInv p n ku vu seen [] v1 ->
  ~ In LF (v1 ++ v2) -> (vu + len (v1 ++ v2) <= vmax)%Z -> (len (v1 ++ v2) <= c_max_value cfg)%Z ->
  last_byte (trim_prefix_spaces (v1 ++ v2)) = Some c ->
  HK n ku (vu + len (v1 ++ v2)) seen
     (apply_header cfg (p_hkey p) (if Byte.eqb c CR then drop_last (trim_prefix_spaces (v1 ++ v2))
                                   else trim_prefix_spaces (v1 ++ v2)) (p_req p)) hs ->
  exists p', step cfg eHeaderValue p (v2 ++ LF :: d') = Goto eHeaderKey p' d' /\
             Expect eHeaderKey p' hs.
Proof.
  intros p n ku vu seen v1 v2 c hs d' (Hn0 & (kd & Hkb & Hkd) & (vd & Hvb & Hvd) & Hum & Hcl) Hlf Hvu Hmv Hlast Hhk.
  simpl. unfold step_header_value.
  rewrite cut_app by (intro H; apply Hlf; apply in_or_app; right; exact H).
  rewrite Hvb. pose proof (len_app v1 v2) as Hla. rewrite buf_append_ok by lia.
  unfold buf_seglen. simpl (b_seg _).
  destruct (Z.gtb_spec (len (v1 ++ v2)) (c_max_value cfg)) as [Hgt|_]; [lia|].
  unfold buf_finish. simpl (b_seg _). simpl (b_done _). simpl (b_max _). cbn zeta.
  rewrite Hlast. eexists. split; [reflexivity|].
  apply X_key with (n := n) (ku := ku) (vu := (vu + len (v1 ++ v2))%Z) (seen := seen) (k1 := []).
  - unfold HInv. simpl. repeat split.
    + exact Hn0.
    + exists kd. split; assumption.
    + exists (vd ++ v1 ++ v2). split; [reflexivity|]. rewrite len_app, Hvd. reflexivity.
    + exact Hum.
    + exact Hcl.
  - simpl. exact Hhk.
  - intro H. contradiction.
Qed.

Lemma step_A : forall l p d r, Expect l p (d ++ r) -> r <> [] -> stepA l p d r.
Proof.
  intros l p d r H Hr. remember (d ++ r) as all eqn:Ea.
  destruct H as [p m1 m2 m line f hs Hst Hs Hm Hu Hl Hlf Hle Hi Hk
    |p sd a1 a2 f hs Hs Hle Hl Hlf Hi Hk
    |p n ku vu seen k1 rest Hi Hk Hx
    |p n ku vu seen v1 v2 c hs Hi Hlf Hvu Hmv Hlast Hhk
    |p n ku vu ds crlf hs Hi Hds Hk
    |p n ku vu hs Hi Hk
    |p n ku vu seen Hi HR].
  - assert (Hn2 : ~ In SP m2).
    { intro H. apply (method_token_nosp m). rewrite <- Hm. apply in_or_app. right. exact H. }
    destruct (split_sep _ _ _ _ _ (eq_sym Ea) Hn2) as [(a2 & -> & -> & Hc)|(d' & -> & Hb & Hc)].
    + right. simpl. unfold step_method. rewrite Hc, Hs.
      rewrite <- Hm in Hle. rewrite !len_app in Hle. pose proof (len_nonneg a2). pose proof (len_nonneg line).
      rewrite buf_append_ok by (rewrite len_nil; lia).
      eexists. split; [reflexivity|]. simpl. rewrite Hst.
      apply X_method with (m1 := m1 ++ d) (m := m) (f := f); try assumption.
      * reflexivity.
      * rewrite <- app_assoc. exact Hm.
      * rewrite <- Hm, !len_app. lia.
      * destruct Hi as (Hn & Hkk & Hv & Hum & Hcl). unfold HInv. simpl. tauto.
    + left. destruct (method_goto p m1 m2 m line f hs d' Hs Hm Hu Hl Hlf Hle Hi Hk) as (p' & Hp & He).
      exists ePath, p', d'. split; [exact Hp|]. split; [rewrite <- Hb; exact He|].
      rewrite app_length. simpl. lia.
  - assert (Hn2 : ~ In LF a2) by (intro H; apply Hlf; apply in_or_app; right; exact H).
    destruct (split_sep _ _ _ _ _ (eq_sym Ea) Hn2) as [(b2 & -> & -> & Hc)|(d' & -> & Hb & Hc)].
    + right. simpl. unfold step_path. rewrite Hc, Hs.
      rewrite !len_app in Hle. pose proof (len_nonneg b2). rewrite buf_append_ok by lia.
      eexists. split; [reflexivity|]. simpl.
      apply X_path with (sd := sd) (a1 := a1 ++ d) (f := f).
      * reflexivity.
      * rewrite !len_app. lia.
      * rewrite <- app_assoc. exact Hl.
      * rewrite <- app_assoc. exact Hlf.
      * destruct Hi as (Hn & Hkk & Hv & Hum & Hcl). unfold HInv. simpl. tauto.
      * exact Hk.
    + left. destruct (path_goto p sd a1 a2 f hs d' Hs Hle Hl Hlf Hi Hk) as (p' & Hp & He).
      exists eHeaderKey, p', d'. split; [exact Hp|]. split; [rewrite <- Hb; exact He|].
      rewrite app_length. simpl. lia.
  - destruct d as [|c0 d0].
    + right. simpl in *. exists (set_p_state eHeaderKey p). split; [reflexivity|]. simpl.
      subst rest. apply X_key with n ku vu seen k1; assumption.
    + destruct k1 as [|x1 k1].
      * destruct (hk_cases _ _ _ _ _ _ Hk) as [(HR & crlf & Hs)|(k & rest' & Hok & Hs)].
        -- simpl in Hs. rewrite Hs in Ea. destruct crlf; simpl in Ea.
           ++ injection Ea as <- Ea. destruct d0 as [|c1 d0].
              ** left. exists eHeaderValueCRLFCR, p, []. split; [reflexivity|].
                 simpl in Ea. subst r. split; [|simpl; lia].
                 simpl. apply X_end with n ku vu seen; assumption.
              ** injection Ea as <- Ea. symmetry in Ea. apply app_eq_nil in Ea. destruct Ea. contradiction.
           ++ injection Ea as <- Ea. symmetry in Ea. apply app_eq_nil in Ea. destruct Ea. contradiction.
        -- simpl in Hs. rewrite Hs in Ea.
           destruct (split_sep _ _ _ _ _ (eq_sym Ea) (proj1 Hok)) as [(a2 & Hk2 & Hr2 & Hc)|(d' & Hd & Hb & Hc)].
           ++ right. simpl. subst k.
              assert (Hc0 : Byte.eqb c0 LF = false /\ Byte.eqb c0 CR = false)
                by (apply (key_first ((c0 :: d0) ++ a2) rest' c0 (d0 ++ a2 ++ x3a :: rest'));
                    [exact Hok|simpl; rewrite <- app_assoc; reflexivity]).
              destruct Hc0 as [-> ->]. rewrite Hc.
              simpl in Hk. rewrite Hs in Hk.
              pose proof (hk_line_inv _ _ _ _ _ _ _ Hok Hk) as (Hn & Hku & _).
              pose proof Hi as (Hn0 & (kd & Hkb & Hkd) & (vd & Hvb & Hvd) & Hum & Hcl).
              rewrite Hkb. rewrite len_app in Hku. pose proof (len_nonneg a2).
              rewrite buf_append_ok by (rewrite len_nil; lia).
              eexists. split; [reflexivity|]. simpl. subst r.
              apply X_key with n ku vu seen (c0 :: d0).
              ** unfold HInv. simpl. repeat split.
                 --- exact Hn0.
                 --- exists kd. split; [reflexivity|exact Hkd].
                 --- exists vd. split; assumption.
                 --- exact Hum.
                 --- exact Hcl.
              ** simpl. simpl in Hk. rewrite <- app_assoc in Hk. exact Hk.
              ** intros _. exists a2, rest'. split; [reflexivity|exact Hok].
           ++ left. rewrite Hd. simpl in Hk. rewrite Hs in Hk.
              destruct (key_goto p n ku vu seen [] k rest' d' Hi Hk Hok) as (l' & p' & Hp & He).
              exists l', p', d'. split; [exact Hp|]. split; [rewrite <- Hb; exact He|].
              rewrite app_length. simpl. lia.
      * destruct Hx as (k2 & rest' & Hrest & Hok); [discriminate|].
        rewrite Hrest in Ea.
        assert (Hok2 : key_ok k2).
        { destruct Hok as (H1 & H2 & H3). repeat split; intro H; [apply H1|apply H2|apply H3];
            apply in_or_app; right; exact H. }
        rewrite Hrest in Hk.
        destruct (split_sep _ _ _ _ _ (eq_sym Ea) (proj1 Hok2)) as [(a2 & Hk2 & Hr2 & Hc)|(d' & Hd & Hb & Hc)].
        -- right. simpl.
           assert (Hc0 : Byte.eqb c0 LF = false /\ Byte.eqb c0 CR = false)
             by (apply (key_first k2 rest' c0 (d0 ++ r)); [exact Hok2|exact Ea]).
           destruct Hc0 as [-> ->]. rewrite Hc.
           pose proof Hk as Hk'. rewrite app_assoc in Hk'.
           pose proof (hk_line_inv _ _ _ _ _ _ _ Hok Hk') as (Hn & Hku & _).
           pose proof Hi as (Hn0 & (kd & Hkb & Hkd) & (vd & Hvb & Hvd) & Hum & Hcl).
           rewrite Hkb. subst k2. rewrite !len_app in Hku. pose proof (len_nonneg a2).
           rewrite buf_append_ok by lia.
           eexists. split; [reflexivity|]. simpl. subst r.
           apply X_key with n ku vu seen ((x1 :: k1) ++ c0 :: d0).
           ++ unfold HInv. simpl. repeat split.
              ** exact Hn0.
              ** exists kd. split; [reflexivity|exact Hkd].
              ** exists vd. split; assumption.
              ** exact Hum.
              ** exact Hcl.
           ++ simpl. simpl in Hk. rewrite <- !app_assoc in *. simpl in *. exact Hk.
           ++ intros _. exists a2, rest'. split; [reflexivity|].
              rewrite <- app_assoc. exact Hok.
        -- left. rewrite Hd.
           destruct (key_goto p n ku vu seen (x1 :: k1) k2 rest' d' Hi Hk Hok) as (l' & p' & Hp & He).
           exists l', p', d'. split; [exact Hp|]. split; [rewrite <- Hb; exact He|].
           rewrite app_length. simpl. lia.
  - assert (Hn2 : ~ In LF v2) by (intro H; apply Hlf; apply in_or_app; right; exact H).
    destruct (split_sep _ _ _ _ _ (eq_sym Ea) Hn2) as [(b2 & -> & -> & Hc)|(d' & -> & Hb & Hc)].
    + right. simpl. unfold step_header_value. rewrite Hc.
      destruct Hi as (Hn0 & (kd & Hkb & Hkd) & (vd & Hvb & Hvd) & Hum & Hcl).
      rewrite Hvb. rewrite app_assoc in *. rewrite (len_app (v1 ++ d) b2) in Hvu, Hmv.
      pose proof (len_nonneg b2). pose proof (len_app v1 d).
      rewrite buf_append_ok by lia. unfold buf_seglen. simpl (b_seg _).
      destruct (Z.gtb_spec (len (v1 ++ d)) (c_max_value cfg)) as [Hgt|_]; [lia|].
      eexists. split; [reflexivity|]. simpl.
      apply X_val with n ku vu seen (v1 ++ d) c.
      * unfold HInv. simpl. repeat split.
        -- exact Hn0.
        -- exists kd. split; assumption.
        -- exists vd. split; [reflexivity|exact Hvd].
        -- exact Hum.
        -- exact Hcl.
      * exact Hlf.
      * rewrite len_app. lia.
      * rewrite len_app. lia.
      * exact Hlast.
      * simpl. exact Hhk.
    + left. destruct (val_goto p n ku vu seen v1 v2 c hs d' Hi Hlf Hvu Hmv Hlast Hhk) as (p' & Hp & He).
      exists eHeaderKey, p', d'. split; [exact Hp|]. split; [rewrite <- Hb; exact He|].
      rewrite app_length. simpl. lia.
  - simpl. unfold step_content_length, stepA.
    destruct (app_split _ _ _ _ _ (eq_sym Ea)) as [(m & -> & ->)|(m & Hm & -> & Hb)].
    + right. apply Forall_app in Hds. destruct Hds as [Hd1 Hd2].
      simpl. unfold step_content_length. rewrite clen_loop_all by exact Hd1.
      eexists. split; [reflexivity|]. simpl.
      apply X_cl with n ku vu.
      * hinv.
      * exact Hd2.
      * simpl. rewrite clen_loop_app in Hk by exact Hd1. exact Hk.
    + left. simpl. unfold step_content_length. rewrite clen_loop_app by exact Hds.
      destruct m as [|c m]; [contradiction|].
      destruct crlf; simpl in Hb; injection Hb as <- Hb.
      * simpl. eexists _, _, m. split; [reflexivity|]. split.
        -- rewrite <- Hb. apply X_clcr with n ku vu; [hinv|exact Hk].
        -- rewrite app_length. simpl. lia.
      * simpl. eexists _, _, m. split; [reflexivity|]. split.
        -- rewrite <- Hb. apply X_key with n ku vu true []; [hinv|exact Hk|].
           intro H. contradiction.
        -- rewrite app_length. simpl. lia.
  - destruct d as [|c d].
    + right. simpl in *. eexists. split; [reflexivity|]. simpl. subst r.
      apply X_clcr with n ku vu; assumption.
    + left. injection Ea as <- ->. simpl. eexists _, _, d. split; [reflexivity|]. split; [|lia].
      apply X_key with n ku vu true []; [hinv|exact Hk|]. intro H. contradiction.
  - destruct d as [|c d].
    + right. simpl in *. eexists. split; [reflexivity|]. simpl. subst r.
      apply X_end with n ku vu seen; assumption.
    + injection Ea as <- Ea. symmetry in Ea. apply app_eq_nil in Ea. destruct Ea. contradiction.
Qed.

Lemma step_B : forall l p rest tail, Expect l p rest -> stepB l p rest tail.
Proof.
  intros l p rest tail H. unfold stepB.
  destruct H as [p m1 m2 m line f hs Hst Hs Hm Hu Hl Hlf Hle Hi Hk
    |p sd a1 a2 f hs Hs Hle Hl Hlf Hi Hk
    |p n ku vu seen k1 rest Hi Hk Hx
    |p n ku vu seen v1 v2 c hs Hi Hlf Hvu Hmv Hlast Hhk
    |p n ku vu ds crlf hs Hi Hds Hk
    |p n ku vu hs Hi Hk
    |p n ku vu seen Hi HR].
  - left. destruct (method_goto p m1 m2 m line f hs (line ++ LF :: hs ++ tail) Hs Hm Hu Hl Hlf Hle Hi Hk)
      as (p' & Hp & He).
    exists ePath, p', (line ++ LF :: hs). split; [|split; [exact He|]].
    + repeat rewrite <- app_assoc in *. simpl. repeat rewrite <- app_assoc. simpl. exact Hp.
    + repeat rewrite app_length. simpl. repeat rewrite app_length. simpl. lia.
  - left. destruct (path_goto p sd a1 a2 f hs (hs ++ tail) Hs Hle Hl Hlf Hi Hk) as (p' & Hp & He).
    exists eHeaderKey, p', hs. split; [|split; [exact He|]].
    + rewrite <- app_assoc. simpl. exact Hp.
    + rewrite app_length. simpl. lia.
  - destruct k1 as [|x1 k1].
    + simpl in Hk. destruct (hk_cases _ _ _ _ _ _ Hk) as [(HR & crlf & ->)|(k & rest' & Hok & ->)].
      * destruct crlf; simpl.
        -- left. exists eHeaderValueCRLFCR, p, [LF]. split; [reflexivity|]. split; [|simpl; lia].
           apply X_end with n ku vu seen; assumption.
        -- right. exists (cleanup p). split; [reflexivity|].
           destruct (cleanup_ready _ _ _ _ _ _ _ Hi) as [H1 H2]. split; [exact H1|]. congruence.
      * left. destruct (key_goto p n ku vu seen [] k rest' (rest' ++ tail) Hi Hk Hok) as (l2 & p2 & Hp & He).
        exists l2, p2, rest'. split; [|split; [exact He|]].
        -- rewrite <- app_assoc. simpl. exact Hp.
        -- rewrite app_length. simpl. lia.
    + left. destruct Hx as (k2 & rest' & -> & Hok); [discriminate|].
      destruct (key_goto p n ku vu seen (x1 :: k1) k2 rest' (rest' ++ tail) Hi Hk Hok) as (l2 & p2 & Hp & He).
      exists l2, p2, rest'. split; [|split; [exact He|]].
      * rewrite <- app_assoc. simpl. exact Hp.
      * rewrite app_length. simpl. lia.
  - left. destruct (val_goto p n ku vu seen v1 v2 c hs (hs ++ tail) Hi Hlf Hvu Hmv Hlast Hhk) as (p' & Hp & He).
    exists eHeaderKey, p', hs. split; [|split; [exact He|]].
    + rewrite <- app_assoc. simpl. exact Hp.
    + rewrite app_length. simpl. lia.
  - left. simpl. unfold step_content_length. rewrite <- app_assoc, clen_loop_app by exact Hds.
    destruct crlf; simpl.
    + eexists _, _, (LF :: hs). split; [reflexivity|]. split.
      * apply X_clcr with n ku vu; [hinv|exact Hk].
      * rewrite app_length. simpl. lia.
    + eexists _, _, hs. split; [reflexivity|]. split.
      * apply X_key with n ku vu true []; [hinv|exact Hk|]. intro H. contradiction.
      * rewrite app_length. simpl. lia.
  - left. simpl. eexists _, _, hs. split; [reflexivity|]. split; [|lia].
    apply X_key with n ku vu true []; [hinv|exact Hk|]. intro H. contradiction.
  - right. simpl. exists (cleanup p). split; [reflexivity|].
    destruct (cleanup_ready _ _ _ _ _ _ _ Hi) as [H1 H2]. split; [exact H1|]. congruence.
Qed.
End Expect.

(* ---- from single steps to whole reads ---- *)
Section Feed.
Variable cfg : hcfg.
Variables umax kmax vmax : Z.
Variable R : request.
Notation Exp := (Expect cfg umax kmax vmax R).

Lemma run_A : forall fuel l p d r, Exp l p (d ++ r) -> r <> [] -> (List.length d < fuel)%nat ->
  exists p', run cfg fuel l p d = RPending p' /\ Exp (p_state p') p' r.
Proof.
  induction fuel as [|f IH]; intros l p d r He Hr Hf; [lia|]. simpl.
  destruct (step_A cfg umax kmax vmax R l p d r He Hr) as [(l' & p' & d' & -> & He' & Hd)|(p' & -> & He')].
  - apply IH; [exact He'|exact Hr|lia].
  - exists p'. split; [reflexivity|exact He'].
Qed.

Lemma run_B : forall fuel l p rest tail, Exp l p rest -> (List.length rest < fuel)%nat ->
  exists p', run cfg fuel l p (rest ++ tail) = RDone p' tail /\ Ready umax kmax vmax p' /\ p_req p' = R.
Proof.
  induction fuel as [|f IH]; intros l p rest tail He Hf; [lia|]. simpl.
  destruct (step_B cfg umax kmax vmax R l p rest tail He) as [(l' & p' & d' & -> & He' & Hd)|(p' & -> & He')].
  - apply IH; [exact He'|lia].
  - exists p'. split; [reflexivity|exact He'].
Qed.

Lemma feed_done : forall reads p rest tail, Exp (p_state p) p rest -> concat reads = rest ++ tail ->
  exists p' extra rs, feed cfg p reads = (RDone p' extra, rs) /\ extra ++ concat rs = tail /\
    Ready umax kmax vmax p' /\ p_req p' = R.
Proof.
  induction reads as [|d reads IH]; intros p rest tail He Hc.
  - simpl in Hc. symmetry in Hc. apply app_eq_nil in Hc. destruct Hc as [-> _].
    exfalso. apply (Expect_nonempty _ _ _ _ _ _ _ _ He). reflexivity.
  - simpl in Hc. simpl. unfold parse.
    destruct (app_split _ _ _ _ _ Hc) as [(r & -> & Hcr)|(m & Hm & -> & ->)].
    + destruct r as [|x r].
      * rewrite app_nil_r in He.
        destruct (run_B (S (List.length d)) _ _ _ [] He (Nat.lt_succ_diag_r _)) as (p' & Hr & Hrd & HR).
        rewrite app_nil_r in Hr. rewrite Hr. exists p', [], reads.
        split; [reflexivity|]. split; [exact Hcr|]. split; assumption.
      * destruct (run_A (S (List.length d)) _ _ _ (x :: r) He) as (p' & Hr & He');
          [discriminate|lia|]. rewrite Hr. apply (IH _ _ _ He' Hcr).
    + assert (Hl : (List.length rest < S (List.length (rest ++ m)))%nat) by (rewrite app_length; lia).
      destruct (run_B _ _ _ _ m He Hl) as (p' & Hr & Hrd & HR). rewrite Hr.
      exists p', m, reads. split; [reflexivity|]. split; [reflexivity|]. split; assumption.
Qed.

(* any proper prefix leaves the parser waiting for more *)
Lemma feed_pending : forall reads p rest more, Exp (p_state p) p rest ->
  concat reads ++ more = rest -> more <> [] ->
  exists p', feed cfg p reads = (RPending p', []) /\ Exp (p_state p') p' more.
Proof.
  induction reads as [|d reads IH]; intros p rest more He Hc Hm.
  - simpl in *. subst. exists p. split; [reflexivity|exact He].
  - simpl in *. rewrite <- app_assoc in Hc. subst rest. unfold parse.
    destruct (run_A (S (List.length d)) _ _ _ _ He) as (p' & Hr & He'); [|lia|].
    + intro H. apply app_eq_nil in H. destruct H. contradiction.
    + rewrite Hr. apply (IH _ _ _ He' eq_refl Hm).
Qed.
End Feed.
