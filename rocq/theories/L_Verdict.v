(* The parser obeys the verdict on the stream, and every stream has one. *)
From Verif Require Import M_Base L_Base M_Status M_Method M_Proto M_Uri M_KeyValue M_Query M_Request
  M_Parser S_Parser S_Head S_Split S_Verdict L_Parser L_Head L_Uri L_Loose L_Tables L_Safe L_Split L_Refuse.
Local Arguments cut : simpl never.
Local Arguments cut_last : simpl never.
Local Open Scope Z_scope.

Section Lines.
Variable cfg : hcfg.
Variables umax kmax vmax : Z.
Notation lim := (cfg_limits cfg umax kmax vmax).
Variable r1 : request.        (* the request after its first line *)

(* the effect of a line on the Content-Length counter and the request *)
Definition eff (s : Z * request) (l : hline) : Z * request :=
  if is_content_length l then let n := fst (clen_loop (fst s) (hl_value l)) in (n, set_content_length n (snd s))
  else (fst s, apply_header cfg (hl_key l) (hl_value l) (snd s)).
Record LInv (p : parser) (ls : list hline) : Prop := {
  li_key : exists kd, p_key p = Buffer kd [] kmax /\ len kd = keys_size ls;
  li_val : exists vd, p_val p = Buffer vd [] vmax /\ len vd = values_size ls;
  li_num : p_hnum p = Z.of_nat (List.length ls);
  li_req : (p_clen p, p_req p) = fold_left eff ls (0, r1) }.
Definition LObeys (res : pres) (v : lverdict) : Prop :=
  match v with
  | LMore => exists p, res = RPending p
  | LTaken ls rest => exists p, res = RDone p rest /\ p_req p = snd (fold_left eff ls (0, r1))
  | LRefused e => exists p, res = RErr p e /\ r_proto (p_req p) = r_proto r1
  | LPanics => res = RPanic
  end.

Lemma keys_snoc : forall ls l, keys_size (ls ++ [l]) = keys_size ls + len (hl_key l).
Proof. intros ls l. unfold keys_size. rewrite fold_right_app. cbn [fold_right]. induction ls as [|x ls IH]; cbn [fold_right]; lia. Qed.
Lemma values_snoc : forall ls l, values_size (ls ++ [l]) = values_size ls + (if is_content_length l then 0 else len (raw_value l)).
Proof. intros ls l. unfold values_size. rewrite fold_right_app. cbn [fold_right]. induction ls as [|x ls IH]; cbn [fold_right]; lia. Qed.

Lemma header_proto : forall k v r, r_proto (apply_header cfg k v r) = r_proto r.
Proof.
  intros k v r. unfold apply_header. do 18 (destruct k as [|? k]; cbn [List.length]; [repeat match goal with |- context [if ?b then _ else _] => destruct b end; try reflexivity; try (destruct (parse_encoding_string v (c_max_enc_tokens cfg)); reflexivity)|]).
  reflexivity.
Qed.
Lemma inv_proto : forall p ls, LInv p ls -> r_proto (p_req p) = r_proto r1.
Proof.
  intros p ls [_ _ _ H]. assert (E : r_proto (snd (fold_left eff ls (0, r1))) = r_proto r1).
  { clear. generalize 0 as n. generalize r1. induction ls as [|l ls IH]; intros r n; [reflexivity|]. cbn [fold_left]. unfold eff at 2. cbn [fst snd].
    destruct (is_content_length l); cbv zeta; rewrite IH; [reflexivity|apply header_proto]. }
  rewrite <- H in E. exact E.
Qed.

(* the names *)
Lemma plain_first : forall n rest, plain_name n -> forall c d, n ++ x3a :: rest = c :: d -> Byte.eqb c LF = false /\ Byte.eqb c CR = false.
Proof.
  intros n rest (A & C & D) c d E. destruct n as [|x n]; cbn [app] in E; injection E as <- _; [split; reflexivity|].
  split; apply beq_neq; intros ->; [apply C|apply A]; left; reflexivity.
Qed.
Definition after_name (kd n : bytes) (p : parser) : parser :=
  set_p_hnum (p_hnum p + 1) (set_p_hkey n (set_p_key (Buffer (kd ++ n) [] kmax) p)).
Lemma name_step : forall p ls n rest, LInv p ls -> plain_name n -> name_fits lim ls n -> line_allowed lim ls ->
  exists kd, len kd = keys_size ls /\
  step_header_key cfg p (n ++ x3a :: rest) = Goto (if length_name n then eContentLength else eHeaderValue) (after_name kd n p) rest.
Proof.
  intros p ls n rest [(kd & Hk & Hkl) _ Hn _] Hp Hf Ha. exists kd. split; [exact Hkl|].
  unfold step_header_key. destruct (n ++ x3a :: rest) as [|c d] eqn:E; [destruct n; discriminate|].
  destruct (plain_first n rest Hp c d E) as [-> ->]. rewrite <- E. rewrite cut_app by apply Hp. rewrite Hk.
  unfold name_fits in Hf. cbn [lim_keys cfg_limits] in Hf. rewrite append_room by (cbn [b_done b_seg b_max]; change (len []) with 0; lia).
  cbn [b_done b_seg b_max app buf_finish]. unfold buf_finish. cbn [b_done b_seg b_max app]. cbn [set_p_hnum p_hnum set_p_hkey set_p_key].
  unfold line_allowed in Ha. cbn [lim_headers cfg_limits] in Ha. rewrite Hn. destruct (Z.gtb_spec (Z.of_nat (List.length ls) + 1) (c_max_headers cfg)) as [G|_]; [lia|].
  rewrite key_is_fold by (try reflexivity; apply Hp). unfold after_name. rewrite Hn. fold (length_name n). destruct (length_name n); reflexivity.
Qed.
Lemma name_many : forall p ls n rest, LInv p ls -> plain_name n -> name_fits lim ls n -> ~ line_allowed lim ls ->
  exists q, step_header_key cfg p (n ++ x3a :: rest) = Ret (RErr q ErrTooManyHeaders) /\ p_req q = p_req p.
Proof.
  intros p ls n rest [(kd & Hk & Hkl) _ Hn _] Hp Hf Ha.
  unfold step_header_key. destruct (n ++ x3a :: rest) as [|c d] eqn:E; [destruct n; discriminate|].
  destruct (plain_first n rest Hp c d E) as [-> ->]. rewrite <- E. rewrite cut_app by apply Hp. rewrite Hk.
  unfold name_fits in Hf. cbn [lim_keys cfg_limits] in Hf. rewrite append_room by (cbn [b_done b_seg b_max]; change (len []) with 0; lia).
  unfold buf_finish. cbn [b_done b_seg b_max app]. cbn [set_p_hnum p_hnum set_p_hkey set_p_key].
  unfold line_allowed in Ha. cbn [lim_headers cfg_limits] in Ha. rewrite Hn. destruct (Z.gtb_spec (Z.of_nat (List.length ls) + 1) (c_max_headers cfg)) as [G|G]; [|lia].
  eexists. split; reflexivity.
Qed.
Lemma append_over : forall b d, len (b_done b) + len (b_seg b) + len d > b_max b -> buf_append b d = None.
Proof. intros b d H. unfold buf_append. destruct (Z.gtb_spec (len (b_done b) + len (b_seg b) + len d) (b_max b)); [reflexivity|lia]. Qed.
Lemma name_over : forall p ls n t, LInv p ls -> plain_name n -> t = [] /\ n <> [] \/ hd CR t = x3a -> ~ name_fits lim ls n ->
  exists q, step_header_key cfg p (n ++ t) = Ret (RErr q ErrHeaderFieldsTooLarge) /\ p_req q = p_req p.
Proof.
  intros p ls n t [(kd & Hk & Hkl) _ Hn _] Hp Ht Hf. unfold name_fits in Hf. cbn [lim_keys cfg_limits] in Hf.
  assert (O : buf_append (p_key p) n = None) by (apply append_over; rewrite Hk; cbn [b_done b_seg b_max]; change (len []) with 0; lia).
  unfold step_header_key. destruct Ht as [[-> Hne]|Ht].
  - rewrite app_nil_r. destruct n as [|c d]; [contradiction|]. destruct (plain_first (c :: d) [] Hp c (d ++ [x3a]) eq_refl) as [-> ->].
    assert (X : cut (c :: d) x3a = None) by (apply cut_none; apply Hp). rewrite X, O. eexists. split; reflexivity.
  - destruct t as [|a t]; [discriminate Ht|]. cbn [hd] in Ht. subst a. destruct (n ++ x3a :: t) as [|c d] eqn:E; [destruct n; discriminate|].
    destruct (plain_first n t Hp c d E) as [-> ->]. rewrite <- E. rewrite cut_app by apply Hp. rewrite O. eexists. split; reflexivity.
Qed.

(* after a line *)
Lemma next_inv : forall p ls kd n l, LInv p ls -> len kd = keys_size ls -> hl_key l = n -> is_content_length l = true ->
  digits_spaces (hl_value l) ->
  LInv (let k := fst (clen_loop (p_clen p) (hl_value l)) in
        set_p_req (set_content_length k (p_req p)) (set_p_clen k (after_name kd n p))) (ls ++ [l]).
Proof.
  intros p ls kd n l [_ (vd & Hv & Hvl) Hn Hr] Hkd Hk Hc Hd. constructor.
  - exists (kd ++ n). split; [reflexivity|]. rewrite keys_snoc, len_app, Hk. lia.
  - exists vd. split; [exact Hv|]. rewrite values_snoc, Hc. lia.
  - cbn [set_p_req set_p_clen after_name set_p_hnum p_hnum]. rewrite app_length. cbn [List.length]. lia.
  - rewrite fold_left_app, <- Hr. cbn [fold_left]. unfold eff. rewrite Hc. reflexivity.
Qed.
Lemma value_inv : forall p ls kd vd l, LInv p ls -> len kd = keys_size ls -> is_content_length l = false -> p_val p = Buffer vd [] vmax -> 
  LInv (set_p_req (apply_header cfg (hl_key l) (hl_value l) (p_req p)) (set_p_val (Buffer (vd ++ raw_value l) [] vmax) (after_name kd (hl_key l) p))) (ls ++ [l]).
Proof.
  intros p ls kd vd l [_ (vd' & Hv & Hvl) Hn Hr] Hkd Hc E. rewrite E in Hv. injection Hv as <-. constructor.
  - exists (kd ++ hl_key l). split; [reflexivity|]. rewrite keys_snoc, len_app. lia.
  - exists (vd ++ raw_value l). split; [reflexivity|]. rewrite values_snoc, Hc, len_app. lia.
  - cbn [set_p_req set_p_val after_name set_p_hnum p_hnum]. rewrite app_length. cbn [List.length]. lia.
  - rewrite fold_left_app, <- Hr. cbn [fold_left]. unfold eff. rewrite Hc. reflexivity.
Qed.
Lemma raw_no_lf : forall l, wf_line l -> is_content_length l = false -> ~ In LF (raw_value l).
Proof.
  intros l (_ & _ & _ & H) Hc. rewrite Hc in H. destruct H as (H & _). unfold raw_value. rewrite !in_app_iff. intros [K|[K|K]].
  - apply repeat_spec in K. discriminate K.
  - exact (H K).
  - destruct (hl_crlf l); [destruct K as [K|[]]; discriminate K|exact K].
Qed.
Lemma render_raw : forall l, render_line l = hl_key l ++ x3a :: raw_value l ++ [LF].
Proof. intros l. unfold render_line, raw_value. rewrite <- !app_assoc. destruct (hl_crlf l); reflexivity. Qed.
Lemma digits_model : forall ds, digits_spaces ds -> Forall dig_or_sp ds.
Proof. intros ds H. exact H. Qed.
Lemma clen_stop : forall ds n c t, digits_spaces ds -> c <> SP -> is_digit c = false -> clen_loop n (ds ++ c :: t) = (fst (clen_loop n ds), Some (c :: t)).
Proof.
  intros ds n c t H Hs Hd. rewrite clen_loop_app by exact H. cbn [clen_loop].
  assert (E : Byte.eqb c SP = false) by (apply beq_neq; exact Hs). rewrite E, Hd. reflexivity.
Qed.
Lemma run_goto : forall f l p d l' p' d', step cfg l p d = Goto l' p' d' -> run cfg (S f) l p d = run cfg f l' p' d'.
Proof. intros f l p d l' p' d' H. cbn [run]. rewrite H. reflexivity. Qed.
Lemma trim_blank : forall k, trim_prefix_spaces (repeat SP k) = [].
Proof. induction k as [|k IH]; [reflexivity|exact IH]. Qed.

Ltac fuel f := destruct f as [|f]; [cbn [List.length] in *; rewrite ?app_length in *; cbn [List.length] in *; rewrite ?app_length in *; cbn [List.length] in *; lia|].

Lemma lines_run : forall ls t v, LinesSay lim ls t v -> forall p f, LInv p ls -> (List.length t < f)%nat -> LObeys (run cfg f eHeaderKey p t) v.
Proof.
  intros ls t v H. induction H as
    [ls|ls crlf t|ls|ls c t Hc|ls n Hp Hne Hf|ls n t Hp Ht Hf|ls n t Hp Hf Ha|ls n raw Hp Hl Hf Ha Hraw Hv|ls n raw t Hp Hl Hf Ha Hraw Ht Hv
    |ls n k t Hp Hl Hf Ha Hv|ls l t v Hl Hw Hf Ha Hv H IH|ls n ds t Hp Hl Hf Ha Hd Ht|ls n ds c t Hp Hl Hf Ha Hd Hsp Hdg Hcr Hlf|ls n ds c t Hp Hl Hf Ha Hd Hlf
    |ls n ds crlf t v Hp Hl Hf Ha Hd H IH]; intros p f I L.
  - fuel f. eexists. reflexivity.
  - assert (Q : p_req p = snd (fold_left eff ls (0, r1))) by (rewrite <- (li_req _ _ I); reflexivity). destruct crlf; cbn [eol app] in *.
    + fuel f. fuel f. exists (cleanup p). split; [reflexivity|exact Q].
    + fuel f. exists (cleanup p). split; [reflexivity|exact Q].
  - fuel f. fuel f. eexists. reflexivity.
  - fuel f. fuel f. rewrite (run_goto (S f) eHeaderKey p (CR :: c :: t) eHeaderValueCRLFCR p (c :: t) eq_refl). cbn [run step]. unfold step_crlfcr.
    assert (E : Byte.eqb c LF = false) by (apply beq_neq; exact Hc). rewrite E. eexists. split; [reflexivity|exact (inv_proto p ls I)].
  - fuel f. destruct I as [(kd & Hk & Hkl) _ Hn _]. cbn [run step]. unfold step_header_key. destruct n as [|c d]; [contradiction|].
    destruct (plain_first (c :: d) [] Hp c (d ++ [x3a]) eq_refl) as [-> ->].
    assert (X : cut (c :: d) x3a = None) by (apply cut_none; apply Hp). rewrite X, Hk. unfold name_fits in Hf. cbn [lim_keys cfg_limits] in Hf.
    rewrite append_room by (cbn [b_done b_seg b_max]; change (len []) with 0; lia). eexists. reflexivity.
  - fuel f. destruct (name_over p ls n t I Hp Ht Hf) as (q & E & Q). rewrite (run_ret cfg f eHeaderKey p _ _ E). exists q. split; [reflexivity|rewrite Q; exact (inv_proto p ls I)].
  - fuel f. destruct (name_many p ls n t I Hp Hf Ha) as (q & E & Q). rewrite (run_ret cfg f eHeaderKey p _ _ E). exists q. split; [reflexivity|rewrite Q; exact (inv_proto p ls I)].
  - fuel f. destruct (name_step p ls n raw I Hp Hf Ha) as (kd & Hkd & E). rewrite Hl in E. rewrite (run_goto f eHeaderKey p _ _ _ _ E).
    fuel f. destruct I as [_ (vd & Hvd & Hvl) _ _]. destruct Hv as [V1 V2]. cbn [lim_values lim_value cfg_limits] in V1, V2.
    cbn [run step]. unfold step_header_value. assert (X : cut raw LF = None) by (apply cut_none; exact Hraw). rewrite X. change (p_val (after_name kd n p)) with (p_val p). rewrite Hvd.
    rewrite append_room by (cbn [b_done b_seg b_max]; change (len []) with 0; lia). unfold buf_seglen. cbn [b_done b_seg b_max app].
    destruct (Z.gtb_spec (len raw) (c_max_value cfg)) as [G|_]; [lia|]. eexists. reflexivity.
  - fuel f. destruct (name_step p ls n (raw ++ t) I Hp Hf Ha) as (kd & Hkd & E). rewrite Hl in E. rewrite (run_goto f eHeaderKey p _ _ _ _ E).
    fuel f. pose proof (inv_proto p ls I) as Pr. destruct I as [_ (vd & Hvd & Hvl) _ _]. unfold value_fits in Hv. cbn [lim_values lim_value cfg_limits] in Hv.
    cbn [run step]. unfold step_header_value. change (p_val (after_name kd n p)) with (p_val p). rewrite Hvd.
    assert (X : match cut (raw ++ t) LF with None => raw ++ t | Some (a, _) => a end = raw).
    { destruct Ht; [rewrite app_nil_r; destruct (cut raw LF) as [[a b]|] eqn:Ec; [apply cut_some in Ec; exfalso; apply Hraw; rewrite (proj1 Ec); apply in_or_app; right; left; reflexivity|reflexivity]|].
      rewrite cut_app by exact Hraw. reflexivity. }
    destruct (Z_le_gt_dec (values_size ls + len raw) vmax) as [V1|V1].
    + assert (A : buf_append (Buffer vd [] vmax) raw = Some (Buffer vd raw vmax)) by (rewrite append_room by (cbn [b_done b_seg b_max]; change (len []) with 0; lia); reflexivity).
      assert (G : (buf_seglen (Buffer vd raw vmax) >? c_max_value cfg) = true).
      { unfold buf_seglen. cbn [b_seg]. destruct (Z.gtb_spec (len raw) (c_max_value cfg)) as [G|G]; [reflexivity|lia]. }
      destruct (cut (raw ++ t) LF) as [[a b]|] eqn:Ec; rewrite X, A, G; eexists; (split; [reflexivity|exact Pr]).
    + assert (A : buf_append (Buffer vd [] vmax) raw = None) by (apply append_over; cbn [b_done b_seg b_max]; change (len []) with 0; lia).
      destruct (cut (raw ++ t) LF) as [[a b]|] eqn:Ec; rewrite X, A; eexists; (split; [reflexivity|exact Pr]).
  - fuel f. destruct (name_step p ls n (repeat SP k ++ LF :: t) I Hp Hf Ha) as (kd & Hkd & E). rewrite Hl in E. rewrite (run_goto f eHeaderKey p _ _ _ _ E).
    fuel f. destruct I as [_ (vd & Hvd & Hvl) _ _]. destruct Hv as [V1 V2]. cbn [lim_values lim_value cfg_limits] in V1, V2.
    cbn [run step]. unfold step_header_value. rewrite cut_app by (intros K; apply repeat_spec in K; discriminate K). change (p_val (after_name kd n p)) with (p_val p). rewrite Hvd.
    rewrite append_room by (cbn [b_done b_seg b_max]; change (len []) with 0; lia). unfold buf_seglen. cbn [b_done b_seg b_max app].
    destruct (Z.gtb_spec (len (repeat SP k)) (c_max_value cfg)) as [G|_]; [lia|]. unfold buf_finish. cbn [b_seg b_done b_max]. rewrite trim_blank. reflexivity.
  - assert (Hp : plain_name (hl_key l)) by (destruct Hw as (A & C & D & _); repeat split; assumption).
    rewrite render_raw, <- app_assoc in *. cbn [app] in *. rewrite <- app_assoc in *. cbn [app] in *. fuel f.
    destruct (name_step p ls (hl_key l) (raw_value l ++ LF :: t) I Hp Hf Ha) as (kd & Hkd & E). unfold length_name in E. fold (is_content_length l) in E. rewrite Hl in E.
    rewrite (run_goto f eHeaderKey p _ _ _ _ E).
    fuel f. destruct I as [Ik (vd & Hvd & Hvl) In0 Ir]. destruct Hv as [V1 V2]. cbn [lim_values lim_value cfg_limits] in V1, V2.
    cbn [run step]. unfold step_header_value. rewrite cut_app by (apply raw_no_lf; assumption). change (p_val (after_name kd (hl_key l) p)) with (p_val p). rewrite Hvd.
    rewrite append_room by (cbn [b_done b_seg b_max]; change (len []) with 0; lia). unfold buf_seglen. cbn [b_done b_seg b_max app].
    destruct (Z.gtb_spec (len (raw_value l)) (c_max_value cfg)) as [G|_]; [lia|]. unfold buf_finish. cbn [b_seg b_done b_max].
    pose proof Hw as (_ & _ & _ & W). rewrite Hl in W. destruct W as (_ & W1 & W2). destruct (raw_value_ok l W1 W2) as (c & -> & Ev). rewrite Ev.
    apply IH; [|rewrite !app_length in L; cbn [List.length] in L; rewrite !app_length in L; cbn [List.length] in L; lia].
    refine (value_inv p ls kd vd l _ Hkd Hl Hvd). constructor; [exact Ik|exists vd; split; assumption|exact In0|exact Ir].
  - fuel f. destruct (name_step p ls n (ds ++ t) I Hp Hf Ha) as (kd & Hkd & E). rewrite Hl in E. rewrite (run_goto f eHeaderKey p _ _ _ _ E). fuel f.
    cbn [run step]. unfold step_content_length. change (p_clen (after_name kd n p)) with (p_clen p). destruct Ht as [->| ->].
    + rewrite app_nil_r, clen_loop_all by exact Hd. eexists. reflexivity.
    + rewrite clen_stop by (try exact Hd; try discriminate; reflexivity). change (Byte.eqb CR CR) with true. cbv iota zeta. fuel f. eexists. reflexivity.
  - fuel f. destruct (name_step p ls n (ds ++ c :: t) I Hp Hf Ha) as (kd & Hkd & E). rewrite Hl in E. rewrite (run_goto f eHeaderKey p _ _ _ _ E). fuel f.
    cbn [run step]. unfold step_content_length. rewrite clen_stop by (try exact Hd; assumption).
    assert (E1 : Byte.eqb c CR = false) by (apply beq_neq; exact Hcr). assert (E2 : Byte.eqb c LF = false) by (apply beq_neq; exact Hlf). rewrite E1, E2. eexists. split; [reflexivity|exact (inv_proto p ls I)].
  - fuel f. destruct (name_step p ls n (ds ++ CR :: c :: t) I Hp Hf Ha) as (kd & Hkd & E). rewrite Hl in E. rewrite (run_goto f eHeaderKey p _ _ _ _ E). fuel f.
    cbn [run step]. unfold step_content_length. rewrite clen_stop by (try exact Hd; try discriminate; reflexivity). change (Byte.eqb CR CR) with true. cbv iota zeta.
    fuel f. cbn [run step]. unfold step_content_length_cr. assert (E2 : Byte.eqb c LF = false) by (apply beq_neq; exact Hlf). rewrite E2. eexists. split; [reflexivity|exact (inv_proto p ls I)].
  - fuel f. destruct (name_step p ls n (ds ++ eol crlf ++ t) I Hp Hf Ha) as (kd & Hkd & E). rewrite Hl in E. rewrite (run_goto f eHeaderKey p _ _ _ _ E). fuel f.
    assert (N : LInv (let k := fst (clen_loop (p_clen p) ds) in set_p_req (set_content_length k (p_req p)) (set_p_clen k (after_name kd n p))) (ls ++ [HLine n 0 ds crlf]))
      by (apply (next_inv p ls kd n (HLine n 0 ds crlf)); [exact I|exact Hkd|reflexivity|exact Hl|exact Hd]).
    cbn [run step]. unfold step_content_length. change (p_clen (after_name kd n p)) with (p_clen p). destruct crlf; cbn [eol app] in *.
    + rewrite clen_stop by (try exact Hd; try discriminate; reflexivity). change (Byte.eqb CR CR) with true. cbv iota zeta.
      fuel f. cbn [run step]. unfold step_content_length_cr. change (Byte.eqb LF LF) with true. cbv iota.
      apply IH; [exact N|rewrite !app_length in L; cbn [List.length] in L; rewrite !app_length in L; cbn [List.length] in L; lia].
    + rewrite clen_stop by (try exact Hd; try discriminate; reflexivity). change (Byte.eqb LF CR) with false. change (Byte.eqb LF LF) with true. cbv iota zeta.
      apply IH; [exact N|rewrite !app_length in L; cbn [List.length] in L; rewrite !app_length in L; cbn [List.length] in L; lia].
Qed.
End Lines.

(* ---- the request taken ---- *)
Lemma as_int64_wrap : forall n z, (exists k, n = z + k * 18446744073709551616) -> as_int64 n (wrap_i64 z).
Proof.
  intros n z (k & ->). unfold wrap_i64, two63, two64. split.
  - pose proof (Z.mod_pos_bound (z + 9223372036854775808) 18446744073709551616 ltac:(lia)). lia.
  - exists (k + (z + 9223372036854775808) / 18446744073709551616). pose proof (Z.div_mod (z + 9223372036854775808) 18446744073709551616 ltac:(lia)). lia.
Qed.
Lemma clen_int64 : forall ds n z, digits_spaces ds -> as_int64 n z ->
  as_int64 (fold_left (fun a d => a * 10 + (bZ d - 48)) (filter is_digit ds) n) (fst (clen_loop z ds)).
Proof.
  induction ds as [|c ds IH]; intros n z H A; [exact A|]. inversion H as [|? ? Hc Hds]; subst. cbn [clen_loop filter].
  destruct (Byte.eqb c SP) eqn:E.
  - apply beq_eq in E. subst c. change (is_digit SP) with false. cbv iota. apply IH; assumption.
  - destruct Hc as [->|Hc]; [discriminate E|]. rewrite Hc. cbn [fold_left]. apply IH; [exact Hds|]. apply as_int64_wrap.
    destruct A as (_ & k & ->). exists (k * 10). lia.
Qed.
Definition line_good (l : hline) : Prop := if is_content_length l then digits_spaces (hl_value l) else wf_line l.
Lemma lines_good : forall lim ls t v, LinesSay lim ls t v -> Forall line_good ls -> forall ls' rest, v = LTaken ls' rest -> Forall line_good ls'.
Proof.
  intros lim ls t v H. induction H; intros G ls' rest E; try discriminate E.
  - injection E as <- _. exact G.
  - eapply IHLinesSay; [|exact E]. apply Forall_app. split; [exact G|]. constructor; [|constructor]. unfold line_good. rewrite H. exact H0.
  - eapply IHLinesSay; [|exact E]. apply Forall_app. split; [exact G|]. constructor; [|constructor]. unfold line_good.
    change (is_content_length (HLine n 0 ds crlf)) with (length_name n). rewrite H0. exact H3.
Qed.
Lemma apply_header_clen : forall cfg k v n r, apply_header cfg k v (set_content_length n r) = set_content_length n (apply_header cfg k v r).
Proof.
  intros cfg k v n r. unfold apply_header. do 18 (destruct k as [|? k]; cbn [List.length]; [repeat match goal with |- context [if ?b then _ else _] => destruct b end; try reflexivity; try (destruct (parse_encoding_string v (c_max_enc_tokens cfg)); reflexivity)|]).
  reflexivity.
Qed.
Lemma set_clen_twice : forall a b r, set_content_length a (set_content_length b r) = set_content_length a r.
Proof. reflexivity. Qed.
Lemma fold_apply_clen : forall cfg ls n r, Forall (fun l => is_field l = true) ls ->
  fold_left (apply_line cfg) ls (set_content_length n r) = set_content_length n (fold_left (apply_line cfg) ls r).
Proof.
  intros cfg. induction ls as [|l ls IH]; intros n r H; [reflexivity|]. inversion H as [|? ? Hl Hls]; subst. cbn [fold_left].
  unfold apply_line at 2 4. unfold is_field in Hl. destruct (is_content_length l); [discriminate|]. rewrite apply_header_clen. apply IH. exact Hls.
Qed.
Lemma filter_fields : forall ls, Forall (fun l => is_field l = true) (filter is_field ls).
Proof. intros ls. apply Forall_forall. intros l H. apply filter_In in H. exact (proj2 H). Qed.
Lemma fold_eff : forall cfg ls n r,
  snd (fold_left (eff cfg) ls (n, r)) =
  (if existsb is_content_length ls then set_content_length (fst (fold_left (eff cfg) ls (n, r))) else fun x => x) (fold_left (apply_line cfg) (filter is_field ls) r).
Proof.
  intros cfg. induction ls as [|l ls IH]; intros n r; [reflexivity|]. cbn [fold_left existsb filter].
  destruct (is_content_length l) eqn:El.
  - assert (E : eff cfg (n, r) l = (fst (clen_loop n (hl_value l)), set_content_length (fst (clen_loop n (hl_value l))) r)) by (unfold eff; rewrite El; reflexivity).
    assert (F : is_field l = false) by (unfold is_field; rewrite El; reflexivity). rewrite E, F. cbn [orb]. rewrite IH. rewrite fold_apply_clen by apply filter_fields. destruct (existsb is_content_length ls) eqn:Ee; [reflexivity|].
    assert (X : forall ms s, existsb is_content_length ms = false -> fst (fold_left (eff cfg) ms s) = fst s).
    { induction ms as [|x ms IHm]; intros s Hx; [reflexivity|]. cbn [existsb] in Hx. apply orb_false_iff in Hx. destruct Hx as [Hx1 Hx2]. cbn [fold_left]. rewrite IHm by exact Hx2.
      unfold eff. rewrite Hx1. reflexivity. }
    rewrite X by exact Ee. reflexivity.
  - assert (E : eff cfg (n, r) l = (n, apply_header cfg (hl_key l) (hl_value l) r)) by (unfold eff; rewrite El; reflexivity).
    assert (F : is_field l = true) by (unfold is_field; rewrite El; reflexivity). rewrite E, F. cbn [orb fold_left]. rewrite IH.
    assert (A : apply_line cfg r l = apply_header cfg (hl_key l) (hl_value l) r) by (unfold apply_line; rewrite El; reflexivity). rewrite A. reflexivity.
Qed.
Lemma eff_digits : forall cfg ls n z r, Forall line_good ls -> as_int64 n z ->
  as_int64 (fold_left (fun a d => a * 10 + (bZ d - 48)) (length_digits ls) n) (fst (fold_left (eff cfg) ls (z, r))).
Proof.
  intros cfg. induction ls as [|l ls IH]; intros n z r G A; [exact A|]. inversion G as [|? ? Gl Gls]; subst. unfold line_good in Gl.
  cbn [fold_left]. unfold eff at 2. unfold length_digits. cbn [filter]. destruct (is_content_length l).
  - cbn [map concat]. rewrite filter_app, fold_left_app. cbn [fst snd]. apply IH; [exact Gls|]. apply clen_int64; assumption.
  - cbn [fst snd]. apply IH; assumption.
Qed.
Lemma no_length : forall ms, Forall (fun l => is_field l = true) ms -> last_value (B "content-length") ms = None.
Proof.
  intros ms F. induction F as [|l ms Fl F IH]; [reflexivity|]. cbn [last_value]. rewrite IH.
  unfold is_field in Fl. change (named (B "content-length") l) with (is_content_length l). destruct (is_content_length l); [discriminate|reflexivity].
Qed.
Lemma fields_clen : forall cfg ls r, Forall (fun l => is_field l = true) ls -> r_content_length (fold_left (apply_line cfg) ls r) = r_content_length r.
Proof.
  intros cfg. induction ls as [|l ls IH]; intros r H; [reflexivity|]. inversion H as [|? ? Hl Hls]; subst. cbn [fold_left]. rewrite IH by exact Hls.
  unfold apply_line. unfold is_field in Hl. destruct (is_content_length l); [discriminate|].
  pose proof (apply_header_clen cfg (hl_key l) (hl_value l) (r_content_length r) r) as E. replace (set_content_length (r_content_length r) r) with r in E by (destruct r; reflexivity).
  rewrite E. reflexivity.
Qed.
Lemma line_effect_clen : forall h r, r_content_length (line_effect h r) = r_content_length r.
Proof. intros h r. unfold line_effect. destruct (h_query h); reflexivity. Qed.
Lemma taken_length : forall cfg h r0, Forall line_good (h_lines h) ->
  LengthAs r0 h (snd (fold_left (eff cfg) (h_lines h) (0, line_effect h (set_method (h_method h) r0)))).
Proof.
  intros cfg h r0 G. unfold LengthAs. rewrite fold_eff.
  assert (A : as_int64 0 0) by (split; [lia|exists 0; lia]).
  pose proof (eff_digits cfg (h_lines h) 0 0 (line_effect h (set_method (h_method h) r0)) G A) as D. fold (dec_value (length_digits (h_lines h))) in D.
  destruct (existsb is_content_length (h_lines h)); [exact D|]. rewrite fields_clen by apply filter_fields. exact (line_effect_clen h (set_method (h_method h) r0)).
Qed.
Lemma fields_last : forall name ls, equal_fold name (B "content-length") = false -> last_value name (filter is_field ls) = last_value name ls.
Proof.
  intros name ls Hn. induction ls as [|l ls IH]; [reflexivity|]. cbn [filter last_value]. unfold is_field at 1. destruct (is_content_length l) eqn:E; cbn [negb].
  - rewrite IH. destruct (last_value name ls); [reflexivity|]. destruct (named name l) eqn:En; [|reflexivity]. exfalso.
    unfold named in En. unfold is_content_length in E. rewrite equal_fold_sym in En. rewrite (equal_fold_trans _ _ _ En E) in Hn. discriminate.
  - cbn [last_value]. rewrite IH. reflexivity.
Qed.
Lemma fields_exists : forall name ls, equal_fold name (B "content-length") = false -> existsb (named name) (filter is_field ls) = existsb (named name) ls.
Proof.
  intros name ls Hn. induction ls as [|l ls IH]; [reflexivity|]. cbn [filter existsb]. unfold is_field at 1. destruct (is_content_length l) eqn:E; cbn [negb].
  - rewrite IH. destruct (named name l) eqn:En; [|reflexivity]. exfalso.
    unfold named in En. unfold is_content_length in E. rewrite equal_fold_sym in En. rewrite (equal_fold_trans _ _ _ En E) in Hn. discriminate.
  - cbn [existsb]. rewrite IH. reflexivity.
Qed.
Lemma fields_pairs : forall ls, field_pairs (filter is_field ls) = field_pairs ls.
Proof.
  unfold field_pairs. induction ls as [|l ls IH]; [reflexivity|]. cbn [filter]. unfold is_field at 1. destruct (is_content_length l) eqn:E; cbn [negb]; [exact IH|].
  cbn [filter]. rewrite E. cbn [negb map]. rewrite IH. reflexivity.
Qed.
Lemma taken : forall cfg umax kmax vmax h r0, Forall line_good (h_lines h) ->
  TakenAs (cfg_limits cfg umax kmax vmax) r0 h (snd (fold_left (eff cfg) (h_lines h) (0, line_effect h (set_method (h_method h) r0)))).
Proof.
  intros cfg umax kmax vmax h r0 G. pose proof (taken_length cfg h r0 G) as TL. revert TL.
  rewrite (fold_eff cfg (h_lines h) 0 (line_effect h (set_method (h_method h) r0))).
  set (z := fst (fold_left (eff cfg) (h_lines h) (0, line_effect h (set_method (h_method h) r0)))).
  assert (W : Forall wf_line (filter is_field (h_lines h))).
  { apply Forall_forall. intros l Hl. apply filter_In in Hl. destruct Hl as [Hl Hf]. rewrite Forall_forall in G. specialize (G l Hl). unfold line_good in G.
    unfold is_field in Hf. destruct (is_content_length l); [discriminate|exact G]. }
  rewrite (lines_any cfg (filter is_field (h_lines h)) (line_effect h (set_method (h_method h) r0)) W).
  rewrite (fields_last (B "content-type")), (fields_last (B "connection")), (fields_last (B "upgrade")), (fields_last (B "transfer-encoding")), (fields_last (B "content-encoding")) by reflexivity.
  rewrite fields_exists by reflexivity. rewrite fields_pairs.
  assert (Q : match h_query h with Some q => q_raw (r_query (line_effect h (set_method (h_method h) r0))) = q /\ q_parsed (r_query (line_effect h (set_method (h_method h) r0))) = false
              | None => r_query (line_effect h (set_method (h_method h) r0)) = r_query r0 end).
  { unfold line_effect. destruct (h_query h); [apply query_set_raw|reflexivity]. }
  intros TL. destruct (existsb is_content_length (h_lines h)); constructor; try exact TL; try exact Q;
    cbn [set_content_length r_method r_path r_query r_params r_proto r_headers r_encoding r_content_length r_content_type r_connection r_upgrade r_ctx r_env r_hijacked
         kv_pairs enc_transfer enc_content enc_chunked enc_trailer];
    unfold line_effect; destruct (h_query h); reflexivity.
Qed.

(* ---- the first line ---- *)
Lemma version_known : forall v pr, version_is v pr -> proto_from_bytes v = pr /\ pr <> PUnknown.
Proof. intros v pr (c & [[-> ->]|[[-> ->]|[-> ->]]]); split; try discriminate; reflexivity. Qed.
Lemma good_line : forall m l h p, GoodLine m l h -> request_line p l = inr (set_p_req (line_effect h (p_req p)) p).
Proof.
  intros m l h p (v & Hm & -> & -> & Hv & Hpr & Hp & Hq & Hd). destruct (version_known _ _ Hpr) as [Pv Pn]. unfold request_line.
  rewrite cut_last_app by exact Hv. destruct (last_byte v) as [c|] eqn:El.
  2:{ apply last_byte_none in El. subst v. exfalso. destruct Hpr as (c & [[X _]|[[X _]|[X _]]]); discriminate X. }
  cbn zeta. rewrite (bare_model v c El), Pv. apply decodes_exactly in Hd.
  unfold target, line_effect. destruct (h_query h) as [q|].
  - rewrite cut_app by exact Hq. destruct (h_path h) as [|x y]; [contradiction|]. rewrite Hd. destruct (h_proto h); try reflexivity; contradiction.
  - rewrite app_nil_r. assert (X : cut (h_path h) x3f = None) by (apply cut_none; exact Hq). rewrite X. destruct (h_path h) as [|x y]; [contradiction|].
    rewrite Hd. destruct (h_proto h); try reflexivity; contradiction.
Qed.
Lemma line_error_proto : forall p l q e, request_line p l = inl (RErr q e) -> r_proto (p_req q) = or_default (line_version e) (r_proto (p_req p)).
Proof.
  intros p l q e H. unfold request_line in H. destruct (cut_last l SP) as [[rp pr]|]; [|injection H as <- <-; reflexivity]. destruct (last_byte pr) as [c|]; [|discriminate].
  cbv zeta in H. set (v := proto_from_bytes _) in H. clearbody v. destruct (cut rp x3f) as [[path qr]|].
  - destruct path as [|x y]; [injection H as <- <-; reflexivity|]. destruct (uri_decode (x :: y)); [|injection H as <- <-; reflexivity]. destruct v; try discriminate. injection H as <- <-. reflexivity.
  - destruct rp as [|x y]; [injection H as <- <-; reflexivity|]. destruct (uri_decode (x :: y)); [|injection H as <- <-; reflexivity]. destruct v; try discriminate. injection H as <- <-. reflexivity.
Qed.
Lemma method_spelled : forall m, In m method_names -> ~ In SP m /\ m <> [].
Proof. intros m H. unfold method_names in H. cbn [In] in H. repeat (destruct H as [<-|H]; [split; [vm_compute; intuition discriminate|discriminate]|]). contradiction. Qed.
Lemma good_method : forall m l h, GoodLine m l h -> In m method_names /\ method_parse m = h_method h.
Proof.
  intros m l h (v & Hm & -> & _). split; [|apply method_parse_token; exact Hm]. destruct (h_method h); [contradiction|vm_compute; tauto ..].
Qed.
Section Whole.
Variable cfg : hcfg.
Variables umax kmax vmax : Z.
Notation lim := (cfg_limits cfg umax kmax vmax).
Lemma start_of : forall m t, ~ In SP m -> start_part (m ++ SP :: t) = m ++ line_part t.
Proof. intros m t H. unfold start_part. rewrite cut_app by exact H. reflexivity. Qed.
Lemma line_of : forall l t, ~ In LF l -> line_part (l ++ LF :: t) = l.
Proof. intros l t H. unfold line_part. rewrite cut_app by exact H. reflexivity. Qed.
Lemma line_of_all : forall l, ~ In LF l -> line_part l = l.
Proof. intros l H. unfold line_part. apply cut_none in H. rewrite H. reflexivity. Qed.
Lemma method_start : forall p m t, Ready umax kmax vmax p -> ~ In SP m -> len (start_part (m ++ SP :: t)) <= umax ->
  step_method p (m ++ SP :: t) = method_end p m t.
Proof.
  intros p m t R Hm L. destruct R as (R1 & R2 & _). rewrite method_room.
  - rewrite cut_app by exact Hm. rewrite R2. reflexivity.
  - unfold roomy, used. rewrite R2. cbn [b_done b_seg b_max]. change (len []) with 0. lia.
Qed.
Definition at_path (m : bytes) (p : parser) : parser := set_p_req (set_method (method_parse m) (p_req p)) p.
Lemma method_next : forall p m t, In m method_names -> method_end p m t = Goto ePath (at_path m p) t.
Proof.
  intros p m t H. pose proof (method_known m H) as K. destruct (method_spelled m H) as [_ Hn]. unfold method_end, at_path. destruct m as [|x m]; [contradiction|]. cbn zeta.
  destruct (method_parse (x :: m)); try reflexivity. contradiction.
Qed.
Lemma path_next : forall p m t, Ready umax kmax vmax p -> In m method_names -> len (start_part (m ++ SP :: t)) <= umax ->
  step_path (at_path m p) t = match cut t LF with
    | None => Ret (RPending (set_p_state ePath (set_p_start (Buffer [] t umax) (at_path m p))))
    | Some (l, rest) => match request_line (set_p_start (Buffer l [] umax) (at_path m p)) l with inl r => Ret r | inr p' => Goto eHeaderKey p' rest end
    end.
Proof.
  intros p m t R Hm L. rewrite start_of in L by apply (method_spelled m Hm). rewrite len_app in L. pose proof (len_nonneg m). destruct R as (R1 & R2 & _). rewrite path_room.
  - change (p_start (at_path m p)) with (p_start p). rewrite R2. reflexivity.
  - unfold roomy, used. change (p_start (at_path m p)) with (p_start p). rewrite R2. cbn [b_done b_seg b_max]. change (len []) with 0. lia.
Qed.
Lemma fst_one : forall p d r, parse cfg p d = r -> feed cfg p [d] = (r, []).
Proof. intros p d r <-. rewrite feed_one. destruct (parse cfg p d); reflexivity. Qed.

Lemma head_once : forall t v, HeadSays lim t v -> forall p, Ready umax kmax vmax p -> len (start_part t) <= umax -> Obeys lim (p_req p) (feed cfg p [t]) v.
Proof.
  intros t v H p R L. pose proof R as (R1 & R2 & R3 & R4 & R5 & R6). destruct H as [t Ht|t|m t Hs Hn Hm|m t Hm Hl|m l t e Hm Hl Hb|m l t Hm Hl|m l t h v Hl Hg Hv].
  - eexists. apply fst_one. unfold parse. rewrite R1. apply run_ret. cbn [step]. rewrite method_room.
    + assert (X : cut t SP = None) by (apply cut_none; exact Ht). rewrite X. reflexivity.
    + unfold roomy, used. rewrite R2. cbn [b_done b_seg b_max]. change (len []) with 0. lia.
  - eexists. rewrite (fst_one p (SP :: t) (RErr p ErrBadRequest)); [split; reflexivity|]. unfold parse. rewrite R1. apply run_ret. cbn [step].
    exact (method_start p [] t R (fun F => F) L).
  - eexists. erewrite fst_one; [split; [reflexivity|]|unfold parse; rewrite R1; apply run_ret; cbn [step]; rewrite (method_start p m t R Hs L);
      unfold method_end; rewrite (method_unknown m Hm); destruct m; [contradiction|reflexivity]]. reflexivity.
  - eexists. apply fst_one. destruct (method_spelled m Hm) as [Hs Hn]. unfold parse. rewrite R1. rewrite app_length. cbn [List.length]. rewrite <- plus_n_Sm.
    rewrite (run_goto cfg _ eMethod p _ ePath (at_path m p) t) by (cbn [step]; rewrite (method_start p m t R Hs L); apply method_next; exact Hm).
    apply run_ret. cbn [step]. rewrite (path_next p m t R Hm L). assert (X : cut t LF = None) by (apply cut_none; exact Hl). rewrite X. reflexivity.
  - destruct (method_spelled m Hm) as [Hs Hn]. destruct (line_refused m l e Hb) as [V|[_ V]].
    { exfalso. destruct (V p []) as (q & V'). rewrite (method_next p m [] Hm) in V'. discriminate V'. }
    destruct (V (set_p_start (Buffer l [] umax) (at_path m p))) as (q & E). exists q. rewrite (fst_one p _ (RErr q e)).
    + split; [reflexivity|]. exact (line_error_proto _ _ _ _ E).
    + unfold parse. rewrite R1. rewrite app_length. cbn [List.length]. rewrite <- plus_n_Sm.
      rewrite (run_goto cfg _ eMethod p _ ePath (at_path m p) (l ++ LF :: t)) by (cbn [step]; rewrite (method_start p m _ R Hs L); apply method_next; exact Hm).
      apply run_ret. cbn [step]. rewrite (path_next p m _ R Hm L). rewrite cut_app by exact Hl. rewrite E. reflexivity.
  - destruct (method_spelled m Hm) as [Hs Hn]. cbn [Obeys]. rewrite (fst_one p _ RPanic); [reflexivity|]. unfold parse. rewrite R1. rewrite app_length. cbn [List.length]. rewrite <- plus_n_Sm.
    rewrite (run_goto cfg _ eMethod p _ ePath (at_path m p) (l ++ SP :: LF :: t)) by (cbn [step]; rewrite (method_start p m _ R Hs L); apply method_next; exact Hm).
    apply run_ret. cbn [step]. rewrite (path_next p m _ R Hm L). change (l ++ SP :: LF :: t) with (l ++ [SP] ++ LF :: t). rewrite app_assoc.
    rewrite cut_app by (rewrite in_app_iff; intros [K|[K|[]]]; [exact (Hl K)|discriminate K]).
    unfold request_line. rewrite cut_last_app by (intros []). reflexivity.
  - destruct (good_method m l h Hg) as [Hm Hmp]. destruct (method_spelled m Hm) as [Hs Hn].
    assert (S0 : parse cfg p (m ++ SP :: l ++ LF :: t) =
      run cfg (List.length m + List.length (l ++ LF :: t)) eHeaderKey (set_p_req (line_effect h (set_method (h_method h) (p_req p))) (set_p_start (Buffer l [] umax) p)) t).
    { unfold parse. rewrite R1. rewrite app_length. cbn [List.length]. rewrite <- plus_n_Sm.
      rewrite (run_goto cfg _ eMethod p _ ePath (at_path m p) (l ++ LF :: t)) by (cbn [step]; rewrite (method_start p m _ R Hs L); apply method_next; exact Hm).
      apply run_goto. cbn [step]. rewrite (path_next p m _ R Hm L). rewrite cut_app by exact Hl. rewrite (good_line m l h _ Hg). unfold at_path. rewrite Hmp. reflexivity. }
    set (p1 := set_p_req _ _) in S0. set (r1 := line_effect h (set_method (h_method h) (p_req p))) in *.
    assert (I : LInv cfg kmax vmax r1 p1 []).
    { constructor; [exists []; split; [exact R3|reflexivity]|exists []; split; [exact R4|reflexivity]|exact R5|]. unfold p1. cbn [set_p_req set_p_start p_clen p_req fold_left]. rewrite R6. reflexivity. }
    pose proof (lines_run cfg umax kmax vmax r1 [] t v Hv p1 (List.length m + List.length (l ++ LF :: t)) I) as O.
    rewrite <- S0 in O. specialize (O ltac:(rewrite app_length; cbn [List.length]; lia)).
    destruct v as [|ls rest|e|]; cbn [LObeys of_lines Obeys] in *.
    + destruct O as (q & O). exists q. apply fst_one. exact O.
    + destruct O as (q & O & Q). rewrite (fst_one _ _ _ O). exists q, rest. split; [reflexivity|]. split; [apply app_nil_r|]. rewrite Q.
      apply (taken cfg umax kmax vmax (with_lines ls h) (p_req p)). exact (lines_good _ _ _ _ Hv (Forall_nil _) _ _ eq_refl).
    + destruct O as (q & O & Q). exists q. rewrite (fst_one _ _ _ O). split; [reflexivity|exact Q].
    + rewrite (fst_one _ _ _ O). reflexivity.
Qed.
Lemma verdict : forall t v, HeadSays lim t v -> forall p reads, Ready umax kmax vmax p -> concat reads = t -> NamedHead t -> len (start_part t) <= umax ->
  Obeys lim (p_req p) (feed cfg p reads) v.
Proof.
  intros t v H p reads R E N L. pose proof (head_once t v H p R L) as O.
  assert (S0 : SameOutcome (feed cfg p reads) (feed cfg p [t])).
  { apply (arrival cfg umax kmax vmax); [exact R|cbn [concat]; rewrite app_nil_r; exact E|rewrite E; exact N|rewrite E; exact L]. }
  unfold SameOutcome in S0. destruct v as [|h rest|v e|]; cbn [Obeys] in *.
  - destruct O as (q & O). rewrite O in S0. cbn [fst] in S0. destruct (feed cfg p reads) as [res rs] eqn:Ef. cbn [fst snd] in *. destruct res; try contradiction.
    exists p0. f_equal. clear - Ef. revert p Ef. induction reads as [|d reads IH]; intros p Ef; cbn [feed] in Ef; [congruence|]. destruct (parse cfg p d); try (eapply IH; exact Ef); congruence.
  - destruct O as (q & x & O1 & O2 & O3). rewrite O1 in S0. destruct (fst (feed cfg p reads)) eqn:Ef; try contradiction. destruct S0 as [-> S0]. exists q, extra. split; [reflexivity|].
    split; [rewrite S0; exact O2|exact O3].
  - destruct O as (q & O & Q). rewrite O in S0. destruct (fst (feed cfg p reads)) eqn:Ef; try contradiction. destruct S0 as [-> S0]. eexists. split; [reflexivity|rewrite S0; exact Q].
  - rewrite O in S0. destruct (fst (feed cfg p reads)) eqn:Ef; try contradiction. reflexivity.
Qed.
End Whole.

(* ---- every stream has a verdict ---- *)
Lemma digits_span : forall t : bytes, exists ds rest, t = ds ++ rest /\ digits_spaces ds /\ (rest = [] \/ exists c r, rest = c :: r /\ c <> SP /\ is_digit c = false).
Proof.
  induction t as [|c t (ds & rest & -> & Hd & Hr)]; [exists [], []; split; [reflexivity|split; [constructor|left; reflexivity]]|].
  destruct (Byte.eqb c SP) eqn:E; [apply beq_eq in E; subst c|].
  - exists (SP :: ds), rest. split; [reflexivity|]. split; [constructor; [left; reflexivity|exact Hd]|exact Hr].
  - destruct (is_digit c) eqn:Ed.
    + exists (c :: ds), rest. split; [reflexivity|]. split; [constructor; [right; exact Ed|exact Hd]|exact Hr].
    + exists [], (c :: ds ++ rest). split; [reflexivity|]. split; [constructor|]. right. exists c, (ds ++ rest). split; [reflexivity|]. split; [|exact Ed].
      intros ->. rewrite beq_refl in E. discriminate.
Qed.
Lemma spaces_span : forall raw : bytes, exists k v, raw = repeat SP k ++ v /\ hd CR v <> SP.
Proof.
  induction raw as [|c raw (k & v & -> & Hv)]; [exists O, []; split; [reflexivity|discriminate]|].
  destruct (Byte.eqb c SP) eqn:E; [apply beq_eq in E; subst c; exists (S k), v; split; [reflexivity|exact Hv]|].
  exists O, (c :: repeat SP k ++ v). split; [reflexivity|]. cbn [hd]. intros ->. rewrite beq_refl in E. discriminate.
Qed.
Lemma raw_line : forall n raw, plain_name n -> length_name n = false -> ~ In LF raw ->
  (exists k, raw = repeat SP k) \/ (exists l, hl_key l = n /\ raw_value l = raw /\ wf_line l).
Proof.
  intros n raw (P1 & P2 & P3) Hl Hr. destruct (spaces_span raw) as (k & v & -> & Hv). destruct (last_byte v) as [c|] eqn:El.
  - right. pose proof (last_byte_some _ _ El) as Ev. destruct (Byte.eqb c CR) eqn:Ec.
    + apply beq_eq in Ec. subst c. exists (HLine n k (drop_last v) true). split; [reflexivity|]. split; [unfold raw_value; cbn [hl_spaces hl_value hl_crlf]; rewrite <- Ev; reflexivity|].
      unfold wf_line. change (is_content_length (HLine n k (drop_last v) true)) with (length_name n). rewrite Hl. cbn [hl_key hl_value hl_crlf].
      split; [exact P3|]. split; [exact P1|]. split; [exact P2|]. split; [|split; [|discriminate]].
      * intros K. apply Hr. apply in_or_app. right. rewrite Ev. apply in_or_app. left. exact K.
      * rewrite Ev in Hv. destruct (drop_last v); [discriminate|exact Hv].
    + exists (HLine n k v false). split; [reflexivity|]. split; [unfold raw_value; cbn [hl_spaces hl_value hl_crlf]; rewrite app_nil_r; reflexivity|].
      unfold wf_line. change (is_content_length (HLine n k v false)) with (length_name n). rewrite Hl. cbn [hl_key hl_value hl_crlf].
      split; [exact P3|]. split; [exact P1|]. split; [exact P2|]. split; [|split; [exact Hv|]].
      * intros K. apply Hr. apply in_or_app. right. exact K.
      * intros _. split; [intros ->; discriminate El|]. rewrite El. intros K. injection K as ->. rewrite beq_refl in Ec. discriminate.
  - left. apply last_byte_none in El. subst v. exists k. apply app_nil_r.
Qed.
Lemma lines_total : forall lim m t, (List.length t <= m)%nat -> NamedLines t -> forall ls, exists v, LinesSay lim ls t v.
Proof.
  intros lim. induction m as [|m IH]; intros t Hm N ls; [destruct t; [exists LMore; constructor|cbn [List.length] in Hm; lia]|].
  destruct N as [t|t|t N].
  - exists (LTaken ls t). exact (Ls_end lim ls false t).
  - destruct t as [|c t]; [exists LMore; apply Ls_cr|]. destruct (Byte.eqb c LF) eqn:E; [apply beq_eq in E; subst c; exists (LTaken ls t); exact (Ls_end lim ls true t)|].
    exists (LRefused ErrBadRequest). apply Ls_cr_other. intros ->. rewrite beq_refl in E. discriminate.
  - destruct N as [n Hp|n t Hp N].
    + destruct n as [|c n]; [exists LMore; constructor|]. destruct (Z_le_gt_dec (keys_size ls + len (c :: n)) (lim_keys lim)) as [F|F].
      * exists LMore. apply Ls_name; [exact Hp|discriminate|exact F].
      * exists (LRefused ErrHeaderFieldsTooLarge). rewrite <- (app_nil_r (c :: n)). apply Ls_name_long; [exact Hp|left; split; [reflexivity|discriminate]|unfold name_fits; lia].
    + destruct (Z_le_gt_dec (keys_size ls + len n) (lim_keys lim)) as [F|F].
      2:{ exists (LRefused ErrHeaderFieldsTooLarge). apply Ls_name_long; [exact Hp|right; reflexivity|unfold name_fits; lia]. }
      destruct (Z_le_gt_dec (Z.of_nat (List.length ls) + 1) (lim_headers lim)) as [A|A].
      2:{ exists (LRefused ErrTooManyHeaders). apply Ls_many; [exact Hp|exact F|unfold line_allowed; lia]. }
      rewrite app_length in Hm. cbn [List.length] in Hm. destruct (length_name n) eqn:El.
      * destruct (digits_span t) as (ds & rest & -> & Hd & [->|(c & r & -> & Hs & Hg)]).
        -- exists LMore. apply Ls_length; auto.
        -- destruct (Byte.eqb c LF) eqn:E1; [apply beq_eq in E1; subst c|].
           ++ assert (N' : NamedLines r).
              { apply midline_app in N; [apply midline_named; exact N|]. intros K. unfold digits_spaces in Hd. rewrite Forall_forall in Hd. destruct (Hd _ K) as [X|X]; discriminate X. }
              rewrite app_length in Hm. cbn [List.length] in Hm. destruct (IH r ltac:(lia) N' (ls ++ [HLine n 0 ds false])) as (v & V). exists v. exact (Ls_length_line lim ls n ds false r v Hp El F A Hd V).
           ++ destruct (Byte.eqb c CR) eqn:E2; [apply beq_eq in E2; subst c|].
              ** destruct r as [|c r]; [exists LMore; apply Ls_length; auto|]. destruct (Byte.eqb c LF) eqn:E3; [apply beq_eq in E3; subst c|].
                 --- assert (N' : NamedLines r).
                     { change (ds ++ CR :: LF :: r) with (ds ++ [CR] ++ LF :: r) in N. rewrite app_assoc in N. apply midline_app in N; [apply midline_named; exact N|].
                       rewrite in_app_iff. intros [K|[K|[]]]; [|discriminate K]. unfold digits_spaces in Hd. rewrite Forall_forall in Hd. destruct (Hd _ K) as [X|X]; discriminate X. }
                     rewrite app_length in Hm. cbn [List.length] in Hm. destruct (IH r ltac:(lia) N' (ls ++ [HLine n 0 ds true])) as (v & V). exists v. exact (Ls_length_line lim ls n ds true r v Hp El F A Hd V).
                 --- exists (LRefused ErrBadRequest). apply Ls_length_cr; auto. intros ->. rewrite beq_refl in E3. discriminate.
              ** exists (LRefused ErrBadRequest). apply Ls_length_bad; auto; intros ->; rewrite beq_refl in *; discriminate.
      * destruct (cut t LF) as [[raw rest]|] eqn:Ec.
        -- pose proof (midline_cut _ _ _ N Ec) as N'. apply cut_some in Ec. destruct Ec as [-> Hr].
           destruct (Z_le_gt_dec (values_size ls + len raw) (lim_values lim)) as [V1|V1].
           2:{ exists (LRefused ErrHeaderFieldsTooLarge). apply Ls_value_long; auto; [constructor|intros [X _]; lia]. }
           destruct (Z_le_gt_dec (len raw) (lim_value lim)) as [V2|V2].
           2:{ exists (LRefused ErrHeaderFieldsTooLarge). apply Ls_value_long; auto; [constructor|intros [_ X]; lia]. }
           destruct (raw_line n raw Hp El Hr) as [(k & ->)|(l & Hk & Hv & Hw)].
           ++ exists LPanics. apply Ls_blank; auto. split; assumption.
           ++ rewrite app_length in Hm. cbn [List.length] in Hm. destruct (IH rest ltac:(lia) N' (ls ++ [l])) as (v & V). exists v.
              assert (X : n ++ x3a :: raw ++ LF :: rest = render_line l ++ rest) by (rewrite render_raw, Hk, Hv, <- app_assoc; cbn [app]; rewrite <- app_assoc; reflexivity). rewrite X.
              apply Ls_line; [unfold is_content_length; rewrite Hk; exact El|exact Hw|rewrite Hk; exact F|exact A|rewrite Hv; split; assumption|exact V].
        -- apply cut_none in Ec.
           destruct (Z_le_gt_dec (values_size ls + len t) (lim_values lim)) as [V1|V1].
           2:{ exists (LRefused ErrHeaderFieldsTooLarge). rewrite <- (app_nil_r t). apply Ls_value_long; auto; [constructor|intros [X _]; lia]. }
           destruct (Z_le_gt_dec (len t) (lim_value lim)) as [V2|V2].
           2:{ exists (LRefused ErrHeaderFieldsTooLarge). rewrite <- (app_nil_r t). apply Ls_value_long; auto; [constructor|intros [_ X]; lia]. }
           exists LMore. apply Ls_value; auto. split; assumption.
Qed.
Lemma version_cases : forall v, ~ version_token v \/ exists pr, version_is v pr.
Proof.
  intros v. destruct (beqb (firstn 6 v) (B "HTTP/1")) eqn:E1.
  - apply beqb_eq in E1. destruct v as [|a [|b [|c [|d [|e [|f [|g [|x [|y v]]]]]]]]]; try discriminate E1; cbn [firstn] in E1; change (B "HTTP/1") with [x48; x54; x54; x50; x2f; x31] in E1;
      injection E1 as -> -> -> -> -> ->; try (left; intros (k & [K|[K|K]]); discriminate K).
    destruct (Byte.eqb x x30) eqn:X0; [apply beq_eq in X0; subst x; right; exists HTTP10, g; left; split; reflexivity|].
    destruct (Byte.eqb x x31) eqn:X1; [apply beq_eq in X1; subst x; right; exists HTTP11, g; right; left; split; reflexivity|].
    left. intros (k & [K|[K|K]]); injection K; intros; subst; discriminate.
  - destruct (beqb (firstn 6 v) (B "HTTP/2")) eqn:E2.
    + apply beqb_eq in E2. destruct v as [|a [|b [|c [|d [|e [|f [|g [|x [|y v]]]]]]]]]; try discriminate E2; cbn [firstn] in E2; change (B "HTTP/2") with [x48; x54; x54; x50; x2f; x32] in E2;
        injection E2 as -> -> -> -> -> ->; try (left; intros (k & [K|[K|K]]); discriminate K).
      destruct (Byte.eqb x x30) eqn:X0; [apply beq_eq in X0; subst x; right; exists HTTP2, g; right; right; split; reflexivity|].
      left. intros (k & [K|[K|K]]); injection K; intros; subst; discriminate.
    + left. intros (k & [K|[K|K]]); subst v; cbn in E1, E2; discriminate.
Qed.
Lemma names_token : forall m, In m method_names -> exists mm, mm <> MUnknown /\ m = method_token mm.
Proof.
  intros m H. exists (method_parse m). split; [exact (method_known m H)|]. unfold method_names in H. cbn [In] in H.
  repeat (destruct H as [<-|H]; [reflexivity|]). contradiction.
Qed.
Lemma names_dec : forall m, In m method_names \/ ~ In m method_names.
Proof.
  intros m. destruct (method_parse m) eqn:E.
  1: right; intros K; exact (method_known m K E).
  all: left; rewrite (method_parse_only m _ E ltac:(discriminate)); vm_compute; tauto.
Qed.
Lemma head_total : forall lim t, NamedHead t -> exists v, HeadSays lim t v.
Proof.
  intros lim t N. destruct (cut t SP) as [[m r]|] eqn:Ec; [|exists VMore; apply Hs_method_more; apply cut_none; exact Ec].
  pose proof (N m r Ec) as Nr. apply cut_some in Ec. destruct Ec as [-> Hs]. destruct m as [|c0 m0]; [eexists; apply Hs_no_method|]. set (m := c0 :: m0) in *.
  destruct (names_dec m) as [Hm|Hm]; [|eexists; apply Hs_method; [exact Hs|discriminate|exact Hm]].
  destruct (cut r LF) as [[l rest]|] eqn:El; [|exists VMore; apply Hs_line_more; [exact Hm|apply cut_none; exact El]].
  pose proof (midline_cut _ _ _ Nr El) as Nl. apply cut_some in El. destruct El as [-> Hl].
  destruct (cut_last l SP) as [[tg v]|] eqn:Et.
  2:{ eexists. apply Hs_line_bad; [exact Hm|exact Hl|]. apply Lr_no_version; [exact Hm|]. apply cut_last_none. exact Et. }
  apply cut_last_some in Et. destruct Et as [-> Hv]. destruct v as [|v0 v1].
  { exists VPanics. rewrite <- app_assoc. apply Hs_line_blank; [exact Hm|]. intros K. apply Hl. apply in_or_app. left. exact K. }
  set (v := v0 :: v1) in *. destruct (uri_decode (path_part tg)) as [d|] eqn:Hd.
  1: apply decodes_exactly in Hd.
  2:{ apply refused_exactly in Hd. destruct Hd as (a & d & s & Ha & Hlen & Hp). eexists. apply Hs_line_bad; [exact Hm|exact Hl|]. eapply Lr_escape; try eassumption. discriminate. }
  destruct (path_part tg) as [|p0 p1] eqn:Ep.
  { eexists. apply Hs_line_bad; [exact Hm|exact Hl|]. apply Lr_no_path; auto. discriminate. }
  destruct (version_cases (bare v)) as [Hr|(pr & Hr)].
  { eexists. apply Hs_line_bad; [exact Hm|exact Hl|]. apply Lr_version with (d := d); auto; try discriminate; rewrite Ep; [discriminate|exact Hd]. }
  destruct (lines_total lim (List.length rest) rest ltac:(lia) Nl []) as (w & Hw). destruct (names_token m Hm) as (mm & Hmm & Em).
  set (q := match cut tg x3f with Some (_, q) => Some q | None => None end).
  exists (of_lines (Head mm (path_part tg) d q pr false [] false) w). apply Hs_lines; [exact Hl| |exact Hw].
  exists v. cbn [h_method h_proto h_path h_decoded]. split; [exact Hmm|]. split; [exact Em|]. split.
  - unfold target. cbn [h_path h_query]. unfold q. unfold path_part in *. destruct (cut tg x3f) as [[a b]|] eqn:Eq; [apply cut_some in Eq; rewrite (proj1 Eq); reflexivity|rewrite app_nil_r; reflexivity].
  - split; [exact Hv|]. split; [exact Hr|]. split; [rewrite Ep; discriminate|]. split; [|rewrite Ep; exact Hd].
    unfold path_part. destruct (cut tg x3f) as [[a b]|] eqn:Eq; [apply cut_some in Eq; exact (proj2 Eq)|apply cut_none; exact Eq].
Qed.

(* ---- so the parser panics exactly there ---- *)
Lemma panics_exactly : forall cfg umax kmax vmax p reads, Ready umax kmax vmax p -> NamedHead (concat reads) ->
  len (start_part (concat reads)) <= umax ->
  (fst (feed cfg p reads) = RPanic <-> HeadSays (cfg_limits cfg umax kmax vmax) (concat reads) VPanics).
Proof.
  intros cfg umax kmax vmax p reads R N L. split.
  - intros E. destruct (head_total (cfg_limits cfg umax kmax vmax) (concat reads) N) as (v & V).
    pose proof (verdict cfg umax kmax vmax _ v V p reads R eq_refl N L) as O. destruct v as [|h rest|v e|]; cbn [Obeys] in O; [| | |exact V].
    + destruct O as (q & O). rewrite O in E. discriminate E.
    + destruct O as (q & x & O & _). congruence.
    + destruct O as (q & O & _). congruence.
  - intros V. exact (verdict cfg umax kmax vmax _ _ V p reads R eq_refl N L).
Qed.

(* ---- and there is only one ---- *)
Lemma lines_line : forall lim lim', lim_headers lim = lim_headers lim' -> lim_keys lim = lim_keys lim' -> lim_values lim = lim_values lim' -> lim_value lim = lim_value lim' ->
  forall ls t v, LinesSay lim ls t v -> LinesSay lim' ls t v.
Proof.
  intros lim lim' A B0 C D ls t v H. assert (N : forall ls k, name_fits lim ls k <-> name_fits lim' ls k) by (intros; unfold name_fits; rewrite B0; tauto).
  assert (L : forall ls, line_allowed lim ls <-> line_allowed lim' ls) by (intros; unfold line_allowed; rewrite A; tauto).
  assert (V : forall ls raw, value_fits lim ls raw <-> value_fits lim' ls raw) by (intros; unfold value_fits; rewrite C, D; tauto).
  induction H; try rewrite N in *; try rewrite L in *; try rewrite V in *; econstructor; eassumption.
Qed.
Lemma head_line : forall lim lim', lim_headers lim = lim_headers lim' -> lim_keys lim = lim_keys lim' -> lim_values lim = lim_values lim' -> lim_value lim = lim_value lim' ->
  forall t v, HeadSays lim t v -> HeadSays lim' t v.
Proof.
  intros lim lim' A B0 C D t v H. destruct H; [apply Hs_method_more|apply Hs_no_method|apply Hs_method|apply Hs_line_more|apply Hs_line_bad|apply Hs_line_blank|apply Hs_lines]; try assumption.
  eapply lines_line; eassumption.
Qed.
Lemma agree : forall lim t v v', NamedHead t -> HeadSays lim t v -> HeadSays lim t v' -> Agree v v'.
Proof.
  intros [ll lh lk lv l1 lt] t v v' N V V'. set (cfg := HCfg lh l1 lt). set (u := len (start_part t)).
  assert (X : HeadSays (cfg_limits cfg u lk lv) t v) by (eapply head_line; [| | | |exact V]; reflexivity).
  assert (X' : HeadSays (cfg_limits cfg u lk lv) t v') by (eapply head_line; [| | | |exact V']; reflexivity).
  assert (R : forall r, Ready u lk lv (new_parser u lk lv r)) by (intros r; repeat split).
  assert (O : forall r, Obeys (cfg_limits cfg u lk lv) r (feed cfg (new_parser u lk lv r) [t]) v /\ Obeys (cfg_limits cfg u lk lv) r (feed cfg (new_parser u lk lv r) [t]) v').
  { intros r. split; [exact (head_once cfg u lk lv t v X _ (R r) (Z.le_refl _))|exact (head_once cfg u lk lv t v' X' _ (R r) (Z.le_refl _))]. }
  destruct v as [|h rest|a e|], v' as [|h' rest'|a' e'|]; cbn [Agree Obeys] in *; try exact I;
    try (exfalso; destruct (O new_request) as [P Q]; decompose [ex and] P; decompose [ex and] Q; repeat match goal with E : feed _ _ _ = _ |- _ => rewrite E in * end; cbn [fst] in *; congruence).
  - destruct (O new_request) as [(p & x & P1 & P2 & _) (q & y & Q1 & Q2 & _)]. rewrite P1 in Q1. injection Q1 as _ <-. congruence.
  - assert (F : e = e' /\ forall p, or_default a p = or_default a' p).
    { split; [destruct (O new_request) as [(p & P1 & _) (q & Q1 & _)]; congruence|]. intros pr. destruct (O (set_proto pr new_request)) as [(p & P1 & P2) (q & Q1 & Q2)].
      rewrite P1 in Q1. injection Q1 as <- _. rewrite P2 in Q2. exact Q2. }
    destruct F as [-> F]. split; [|reflexivity]. destruct a as [x|], a' as [y|]; cbn [or_default] in F.
    + rewrite (F PUnknown). reflexivity.
    + pose proof (F HTTP10) as F1. pose proof (F HTTP11) as F2. congruence.
    + pose proof (F HTTP10) as F1. pose proof (F HTTP11) as F2. congruence.
    + reflexivity.
Qed.
Lemma length_exactly : forall cfg umax kmax vmax p reads h rest, Ready umax kmax vmax p -> NamedHead (concat reads) -> len (start_part (concat reads)) <= umax ->
  HeadSays (cfg_limits cfg umax kmax vmax) (concat reads) (VTaken h rest) -> existsb is_content_length (h_lines h) = true ->
  exists q extra, fst (feed cfg p reads) = RDone q extra /\ as_int64 (dec_value (length_digits (h_lines h))) (r_content_length (p_req q)).
Proof.
  intros cfg umax kmax vmax p reads h rest R N L V E. pose proof (verdict cfg umax kmax vmax _ _ V p reads R eq_refl N L) as (q & x & O1 & _ & O3). apply ta_length in O3.
  exists q, x. split; [exact O1|]. unfold LengthAs in O3. rewrite E in O3. exact O3.
Qed.
