(* The parser follows the verdict of S_Arrive.v on any reads, and every list of reads has one. *)
From Verif Require Import M_Base L_Base M_Status M_Method M_Proto M_Uri M_KeyValue M_Query M_Request
  M_Parser S_Parser S_Head S_Split S_Verdict S_Arrive L_Parser L_Head L_Uri L_Loose L_Tables L_Safe L_Split L_Refuse L_Verdict.
Local Arguments cut : simpl never.
Local Arguments cut_last : simpl never.
Local Open Scope Z_scope.

(* ---- names ---- *)
Lemma or20_compared : forall k, map or20 (compared k) = map or20 k.
Proof.
  intros k. unfold compared. rewrite map_map. apply map_ext. intros c. destruct (Byte.eqb c CR) eqn:E; [apply beq_eq in E; subst c; reflexivity|].
  destruct (Byte.eqb c LF) eqn:E2; [apply beq_eq in E2; subst c; reflexivity|reflexivity].
Qed.
Lemma key_is_compared : forall k name, key_is (compared k) name = key_is k name.
Proof. intros k name. unfold key_is. rewrite or20_compared. reflexivity. Qed.
Lemma compared_plain : forall k, ~ In x3a k -> plain_name (compared k).
Proof.
  intros k H. repeat split; intros K; apply in_map_iff in K; destruct K as (c & E & I0); destruct (Byte.eqb c CR) eqn:E1; try discriminate E; destruct (Byte.eqb c LF) eqn:E2; try discriminate E; subst c; try discriminate.
  exact (H I0).
Qed.
Lemma compared_key : forall n, ~ In x3a n -> key_is n (B "content-length") = counts_length n.
Proof. intros n H. rewrite <- key_is_compared. apply key_is_fold; [reflexivity|]. apply (compared_plain n H). Qed.
Lemma compared_len : forall k, len (compared k) = len k.
Proof. intros k. unfold len, compared. rewrite map_length. reflexivity. Qed.
Lemma keys_compared : forall ls, keys_size (map compared_line ls) = keys_size ls.
Proof. induction ls as [|l ls IH]; [reflexivity|]. unfold keys_size in *. cbn [map fold_right]. rewrite IH. cbn [compared_line hl_key]. rewrite compared_len. reflexivity. Qed.
Section Arrive.
Variable cfg : hcfg.
Variables umax kmax vmax : Z.
Notation lim := (cfg_limits cfg umax kmax vmax).
Variable r1 : request.        (* the request after its first line *)

(* the effect of a line on the Content-Length counter and the request *)
Definition effect (s : Z * request) (l : hline) : Z * request :=
  if counts_length (hl_key l) then let n := fst (clen_loop (fst s) (hl_value l)) in (n, set_content_length n (snd s))
  else (fst s, apply_header cfg (hl_key l) (hl_value l) (snd s)).
Record AInv (p : parser) (ls : list hline) : Prop := {
  ai_key : exists kd, p_key p = Buffer kd [] kmax /\ len kd = keys_size ls;
  ai_val : exists vd, p_val p = Buffer vd [] vmax /\ len vd = values_size (map compared_line ls);
  ai_num : p_hnum p = Z.of_nat (List.length ls);
  ai_req : (p_clen p, p_req p) = fold_left effect ls (0, r1) }.
Definition AObeys (res : pres) (v : lverdict) : Prop :=
  match v with
  | LMore => exists p, res = RPending p
  | LTaken ls rest => exists p, res = RDone p rest /\ p_req p = snd (fold_left effect ls (0, r1))
  | LRefused e => exists p, res = RErr p e /\ r_proto (p_req p) = r_proto r1
  | LPanics => res = RPanic
  end.

Lemma values_more : forall ls l, values_size (map compared_line (ls ++ [l])) = values_size (map compared_line ls) + (if counts_length (hl_key l) then 0 else len (raw_value l)).
Proof. intros ls l. rewrite map_app. cbn [map]. rewrite values_snoc. reflexivity. Qed.

Lemma inv_proto : forall p ls, AInv p ls -> r_proto (p_req p) = r_proto r1.
Proof.
  intros p ls [_ _ _ H]. assert (E : r_proto (snd (fold_left effect ls (0, r1))) = r_proto r1).
  { clear. generalize 0 as n. generalize r1. induction ls as [|l ls IH]; intros r n; [reflexivity|]. cbn [fold_left]. unfold effect at 2. cbn [fst snd].
    destruct (counts_length (hl_key l)); cbv zeta; rewrite IH; [reflexivity|apply (header_proto cfg)]. }
  rewrite <- H in E. exact E.
Qed.

(* the names *)
Lemma name_first : forall n rest, a_name n -> forall c d, n ++ x3a :: rest = c :: d -> Byte.eqb c LF = false /\ Byte.eqb c CR = false.
Proof.
  intros n rest (A & C) c d E. destruct n as [|x n]; cbn [app] in E; injection E as <- _; [split; reflexivity|]. cbn [hd] in C. unfold a_break in C.
  split; apply beq_neq; intros ->; apply C; auto.
Qed.
Definition after_name (kd n : bytes) (p : parser) : parser :=
  set_p_hnum (p_hnum p + 1) (set_p_hkey n (set_p_key (Buffer (kd ++ n) [] kmax) p)).
Lemma name_step : forall p ls n rest, AInv p ls -> a_name n -> name_fits lim ls n -> line_allowed lim ls ->
  exists kd, len kd = keys_size ls /\
  step_header_key cfg p (n ++ x3a :: rest) = Goto (if counts_length n then eContentLength else eHeaderValue) (after_name kd n p) rest.
Proof.
  intros p ls n rest [(kd & Hk & Hkl) _ Hn _] Hp Hf Ha. exists kd. split; [exact Hkl|].
  unfold step_header_key. destruct (n ++ x3a :: rest) as [|c d] eqn:E; [destruct n; discriminate|].
  destruct (name_first n rest Hp c d E) as [-> ->]. rewrite <- E. rewrite cut_app by apply Hp. rewrite Hk.
  unfold name_fits in Hf. cbn [lim_keys cfg_limits] in Hf. rewrite append_room by (cbn [b_done b_seg b_max]; change (len []) with 0; lia).
  cbn [b_done b_seg b_max app buf_finish]. unfold buf_finish. cbn [b_done b_seg b_max app]. cbn [set_p_hnum p_hnum set_p_hkey set_p_key].
  unfold line_allowed in Ha. cbn [lim_headers cfg_limits] in Ha. rewrite Hn. destruct (Z.gtb_spec (Z.of_nat (List.length ls) + 1) (c_max_headers cfg)) as [G|_]; [lia|].
  rewrite compared_key by apply Hp. unfold after_name. rewrite Hn. destruct (counts_length n); reflexivity.
Qed.
Lemma name_many : forall p ls n rest, AInv p ls -> a_name n -> name_fits lim ls n -> ~ line_allowed lim ls ->
  exists q, step_header_key cfg p (n ++ x3a :: rest) = Ret (RErr q ErrTooManyHeaders) /\ p_req q = p_req p.
Proof.
  intros p ls n rest [(kd & Hk & Hkl) _ Hn _] Hp Hf Ha.
  unfold step_header_key. destruct (n ++ x3a :: rest) as [|c d] eqn:E; [destruct n; discriminate|].
  destruct (name_first n rest Hp c d E) as [-> ->]. rewrite <- E. rewrite cut_app by apply Hp. rewrite Hk.
  unfold name_fits in Hf. cbn [lim_keys cfg_limits] in Hf. rewrite append_room by (cbn [b_done b_seg b_max]; change (len []) with 0; lia).
  unfold buf_finish. cbn [b_done b_seg b_max app]. cbn [set_p_hnum p_hnum set_p_hkey set_p_key].
  unfold line_allowed in Ha. cbn [lim_headers cfg_limits] in Ha. rewrite Hn. destruct (Z.gtb_spec (Z.of_nat (List.length ls) + 1) (c_max_headers cfg)) as [G|G]; [|lia].
  eexists. split; reflexivity.
Qed.
Lemma name_over : forall p ls n t, AInv p ls -> a_name n -> t = [] /\ n <> [] \/ hd CR t = x3a -> ~ name_fits lim ls n ->
  exists q, step_header_key cfg p (n ++ t) = Ret (RErr q ErrHeaderFieldsTooLarge) /\ p_req q = p_req p.
Proof.
  intros p ls n t [(kd & Hk & Hkl) _ Hn _] Hp Ht Hf. unfold name_fits in Hf. cbn [lim_keys cfg_limits] in Hf.
  assert (O : buf_append (p_key p) n = None) by (apply append_over; rewrite Hk; cbn [b_done b_seg b_max]; change (len []) with 0; lia).
  unfold step_header_key. destruct Ht as [[-> Hne]|Ht].
  - rewrite app_nil_r. destruct n as [|c d]; [contradiction|]. destruct (name_first (c :: d) [] Hp c (d ++ [x3a]) eq_refl) as [-> ->].
    assert (X : cut (c :: d) x3a = None) by (apply cut_none; apply Hp). rewrite X, O. eexists. split; reflexivity.
  - destruct t as [|a t]; [discriminate Ht|]. cbn [hd] in Ht. subst a. destruct (n ++ x3a :: t) as [|c d] eqn:E; [destruct n; discriminate|].
    destruct (name_first n t Hp c d E) as [-> ->]. rewrite <- E. rewrite cut_app by apply Hp. rewrite O. eexists. split; reflexivity.
Qed.

(* after a line *)
Lemma next_inv : forall p ls kd n l, AInv p ls -> len kd = keys_size ls -> hl_key l = n -> counts_length (hl_key l) = true ->
  digits_spaces (hl_value l) ->
  AInv (let k := fst (clen_loop (p_clen p) (hl_value l)) in
        set_p_req (set_content_length k (p_req p)) (set_p_clen k (after_name kd n p))) (ls ++ [l]).
Proof.
  intros p ls kd n l [_ (vd & Hv & Hvl) Hn Hr] Hkd Hk Hc Hd. constructor.
  - exists (kd ++ n). split; [reflexivity|]. rewrite keys_snoc, len_app, Hk. lia.
  - exists vd. split; [exact Hv|]. rewrite values_more, Hc. lia.
  - cbn [set_p_req set_p_clen after_name set_p_hnum p_hnum]. rewrite app_length. cbn [List.length]. lia.
  - rewrite fold_left_app, <- Hr. cbn [fold_left]. unfold effect. rewrite Hc. reflexivity.
Qed.
Lemma value_inv : forall p ls kd vd l, AInv p ls -> len kd = keys_size ls -> counts_length (hl_key l) = false -> p_val p = Buffer vd [] vmax -> 
  AInv (set_p_req (apply_header cfg (hl_key l) (hl_value l) (p_req p)) (set_p_val (Buffer (vd ++ raw_value l) [] vmax) (after_name kd (hl_key l) p))) (ls ++ [l]).
Proof.
  intros p ls kd vd l [_ (vd' & Hv & Hvl) Hn Hr] Hkd Hc E. rewrite E in Hv. injection Hv as <-. constructor.
  - exists (kd ++ hl_key l). split; [reflexivity|]. rewrite keys_snoc, len_app. lia.
  - exists (vd ++ raw_value l). split; [reflexivity|]. rewrite values_more, Hc, len_app. lia.
  - cbn [set_p_req set_p_val after_name set_p_hnum p_hnum]. rewrite app_length. cbn [List.length]. lia.
  - rewrite fold_left_app, <- Hr. cbn [fold_left]. unfold effect. rewrite Hc. reflexivity.
Qed.
Lemma raw_no_break : forall l, a_line l -> ~ In LF (raw_value l).
Proof.
  intros l (_ & H & _). unfold raw_value. rewrite !in_app_iff. intros [K|[K|K]].
  - apply repeat_spec in K. discriminate K.
  - exact (H K).
  - destruct (hl_crlf l); [destruct K as [K|[]]; discriminate K|exact K].
Qed.

Ltac fuel f := destruct f as [|f]; [cbn [List.length] in *; rewrite ?app_length in *; cbn [List.length] in *; rewrite ?app_length in *; cbn [List.length] in *; lia|].

Lemma lines_follow : forall ls t v, LinesTell lim ls t v -> forall p f, AInv p ls -> (List.length t < f)%nat -> AObeys (run cfg f eHeaderKey p t) v.
Proof.
  intros ls t v H. induction H as
    [ls|ls crlf t|ls|ls c t Hc|ls n Hp Hne Hf|ls n t Hp Ht Hf|ls n t Hp Hf Ha|ls n raw Hp Hl Hf Ha Hraw Hv|ls n raw t Hp Hl Hf Ha Hraw Ht Hv
    |ls n k t Hp Hl Hf Ha Hv|ls l t v Hl Hw Hf Ha Hv H IH|ls n ds t Hp Hl Hf Ha Hd Ht|ls n ds c t Hp Hl Hf Ha Hd Hsp Hdg Hcr Hlf|ls n ds c t Hp Hl Hf Ha Hd Hlf
    |ls n ds crlf t v Hp Hl Hf Ha Hd H IH]; intros p f I L.
  - fuel f. eexists. reflexivity.
  - assert (Q : p_req p = snd (fold_left effect ls (0, r1))) by (rewrite <- (ai_req _ _ I); reflexivity). destruct crlf; cbn [eol app] in *.
    + fuel f. fuel f. exists (cleanup p). split; [reflexivity|exact Q].
    + fuel f. exists (cleanup p). split; [reflexivity|exact Q].
  - fuel f. fuel f. eexists. reflexivity.
  - fuel f. fuel f. rewrite (run_goto cfg (S f) eHeaderKey p (CR :: c :: t) eHeaderValueCRLFCR p (c :: t) eq_refl). cbn [run step]. unfold step_crlfcr.
    assert (E : Byte.eqb c LF = false) by (apply beq_neq; exact Hc). rewrite E. eexists. split; [reflexivity|exact (inv_proto p ls I)].
  - fuel f. destruct I as [(kd & Hk & Hkl) _ Hn _]. cbn [run step]. unfold step_header_key. destruct n as [|c d]; [contradiction|].
    destruct (name_first (c :: d) [] Hp c (d ++ [x3a]) eq_refl) as [-> ->].
    assert (X : cut (c :: d) x3a = None) by (apply cut_none; apply Hp). rewrite X, Hk. unfold name_fits in Hf. cbn [lim_keys cfg_limits] in Hf.
    rewrite append_room by (cbn [b_done b_seg b_max]; change (len []) with 0; lia). eexists. reflexivity.
  - fuel f. destruct (name_over p ls n t I Hp Ht Hf) as (q & E & Q). rewrite (run_ret cfg f eHeaderKey p _ _ E). exists q. split; [reflexivity|rewrite Q; exact (inv_proto p ls I)].
  - fuel f. destruct (name_many p ls n t I Hp Hf Ha) as (q & E & Q). rewrite (run_ret cfg f eHeaderKey p _ _ E). exists q. split; [reflexivity|rewrite Q; exact (inv_proto p ls I)].
  - fuel f. destruct (name_step p ls n raw I Hp Hf Ha) as (kd & Hkd & E). rewrite Hl in E. rewrite (run_goto cfg f eHeaderKey p _ _ _ _ E).
    fuel f. destruct I as [_ (vd & Hvd & Hvl) _ _]. unfold value_room, value_fits in Hv. destruct Hv as [V1 V2]. cbn [lim_values lim_value cfg_limits] in V1, V2.
    cbn [run step]. unfold step_header_value. assert (X : cut raw LF = None) by (apply cut_none; exact Hraw). rewrite X. change (p_val (after_name kd n p)) with (p_val p). rewrite Hvd.
    rewrite append_room by (cbn [b_done b_seg b_max]; change (len []) with 0; lia). unfold buf_seglen. cbn [b_done b_seg b_max app].
    destruct (Z.gtb_spec (len raw) (c_max_value cfg)) as [G|_]; [lia|]. eexists. reflexivity.
  - fuel f. destruct (name_step p ls n (raw ++ t) I Hp Hf Ha) as (kd & Hkd & E). rewrite Hl in E. rewrite (run_goto cfg f eHeaderKey p _ _ _ _ E).
    fuel f. pose proof (inv_proto p ls I) as Pr. destruct I as [_ (vd & Hvd & Hvl) _ _]. unfold value_room, value_fits in Hv. cbn [lim_values lim_value cfg_limits] in Hv.
    cbn [run step]. unfold step_header_value. change (p_val (after_name kd n p)) with (p_val p). rewrite Hvd.
    assert (X : match cut (raw ++ t) LF with None => raw ++ t | Some (a, _) => a end = raw).
    { destruct Ht; [rewrite app_nil_r; destruct (cut raw LF) as [[a b]|] eqn:Ec; [apply cut_some in Ec; exfalso; apply Hraw; rewrite (proj1 Ec); apply in_or_app; right; left; reflexivity|reflexivity]|].
      rewrite cut_app by exact Hraw. reflexivity. }
    destruct (Z_le_gt_dec (values_size (map compared_line ls) + len raw) vmax) as [V1|V1].
    + assert (A : buf_append (Buffer vd [] vmax) raw = Some (Buffer vd raw vmax)) by (rewrite append_room by (cbn [b_done b_seg b_max]; change (len []) with 0; lia); reflexivity).
      assert (G : (buf_seglen (Buffer vd raw vmax) >? c_max_value cfg) = true).
      { unfold buf_seglen. cbn [b_seg]. destruct (Z.gtb_spec (len raw) (c_max_value cfg)) as [G|G]; [reflexivity|lia]. }
      destruct (cut (raw ++ t) LF) as [[a b]|] eqn:Ec; rewrite X, A, G; eexists; (split; [reflexivity|exact Pr]).
    + assert (A : buf_append (Buffer vd [] vmax) raw = None) by (apply append_over; cbn [b_done b_seg b_max]; change (len []) with 0; lia).
      destruct (cut (raw ++ t) LF) as [[a b]|] eqn:Ec; rewrite X, A; eexists; (split; [reflexivity|exact Pr]).
  - fuel f. destruct (name_step p ls n (repeat SP k ++ LF :: t) I Hp Hf Ha) as (kd & Hkd & E). rewrite Hl in E. rewrite (run_goto cfg f eHeaderKey p _ _ _ _ E).
    fuel f. destruct I as [_ (vd & Hvd & Hvl) _ _]. unfold value_room, value_fits in Hv. destruct Hv as [V1 V2]. cbn [lim_values lim_value cfg_limits] in V1, V2.
    cbn [run step]. unfold step_header_value. rewrite cut_app by (intros K; apply repeat_spec in K; discriminate K). change (p_val (after_name kd n p)) with (p_val p). rewrite Hvd.
    rewrite append_room by (cbn [b_done b_seg b_max]; change (len []) with 0; lia). unfold buf_seglen. cbn [b_done b_seg b_max app].
    destruct (Z.gtb_spec (len (repeat SP k)) (c_max_value cfg)) as [G|_]; [lia|]. unfold buf_finish. cbn [b_seg b_done b_max]. rewrite trim_blank. reflexivity.
  - assert (Hp : a_name (hl_key l)) by exact (proj1 Hw).
    rewrite render_raw, <- app_assoc in *. cbn [app] in *. rewrite <- app_assoc in *. cbn [app] in *. fuel f.
    destruct (name_step p ls (hl_key l) (raw_value l ++ LF :: t) I Hp Hf Ha) as (kd & Hkd & E). rewrite Hl in E.
    rewrite (run_goto cfg f eHeaderKey p _ _ _ _ E).
    fuel f. destruct I as [Ik (vd & Hvd & Hvl) In0 Ir]. unfold value_room, value_fits in Hv. destruct Hv as [V1 V2]. cbn [lim_values lim_value cfg_limits] in V1, V2.
    cbn [run step]. unfold step_header_value. rewrite cut_app by (apply raw_no_break; assumption). change (p_val (after_name kd (hl_key l) p)) with (p_val p). rewrite Hvd.
    rewrite append_room by (cbn [b_done b_seg b_max]; change (len []) with 0; lia). unfold buf_seglen. cbn [b_done b_seg b_max app].
    destruct (Z.gtb_spec (len (raw_value l)) (c_max_value cfg)) as [G|_]; [lia|]. unfold buf_finish. cbn [b_seg b_done b_max].
    pose proof Hw as (_ & _ & W1 & W2). destruct (raw_value_ok l W1 W2) as (c & -> & Ev). rewrite Ev.
    apply IH; [|rewrite !app_length in L; cbn [List.length] in L; rewrite !app_length in L; cbn [List.length] in L; lia].
    refine (value_inv p ls kd vd l _ Hkd Hl Hvd). constructor; [exact Ik|exists vd; split; assumption|exact In0|exact Ir].
  - fuel f. destruct (name_step p ls n (ds ++ t) I Hp Hf Ha) as (kd & Hkd & E). rewrite Hl in E. rewrite (run_goto cfg f eHeaderKey p _ _ _ _ E). fuel f.
    cbn [run step]. unfold step_content_length. change (p_clen (after_name kd n p)) with (p_clen p). destruct Ht as [->| ->].
    + rewrite app_nil_r, clen_loop_all by exact Hd. eexists. reflexivity.
    + rewrite clen_stop by (try exact Hd; try discriminate; reflexivity). change (Byte.eqb CR CR) with true. cbv iota zeta. fuel f. eexists. reflexivity.
  - fuel f. destruct (name_step p ls n (ds ++ c :: t) I Hp Hf Ha) as (kd & Hkd & E). rewrite Hl in E. rewrite (run_goto cfg f eHeaderKey p _ _ _ _ E). fuel f.
    cbn [run step]. unfold step_content_length. rewrite clen_stop by (try exact Hd; assumption).
    assert (E1 : Byte.eqb c CR = false) by (apply beq_neq; exact Hcr). assert (E2 : Byte.eqb c LF = false) by (apply beq_neq; exact Hlf). rewrite E1, E2. eexists. split; [reflexivity|exact (inv_proto p ls I)].
  - fuel f. destruct (name_step p ls n (ds ++ CR :: c :: t) I Hp Hf Ha) as (kd & Hkd & E). rewrite Hl in E. rewrite (run_goto cfg f eHeaderKey p _ _ _ _ E). fuel f.
    cbn [run step]. unfold step_content_length. rewrite clen_stop by (try exact Hd; try discriminate; reflexivity). change (Byte.eqb CR CR) with true. cbv iota zeta.
    fuel f. cbn [run step]. unfold step_content_length_cr. assert (E2 : Byte.eqb c LF = false) by (apply beq_neq; exact Hlf). rewrite E2. eexists. split; [reflexivity|exact (inv_proto p ls I)].
  - fuel f. destruct (name_step p ls n (ds ++ eol crlf ++ t) I Hp Hf Ha) as (kd & Hkd & E). rewrite Hl in E. rewrite (run_goto cfg f eHeaderKey p _ _ _ _ E). fuel f.
    assert (N : AInv (let k := fst (clen_loop (p_clen p) ds) in set_p_req (set_content_length k (p_req p)) (set_p_clen k (after_name kd n p))) (ls ++ [HLine n 0 ds crlf]))
      by (apply (next_inv p ls kd n (HLine n 0 ds crlf)); [exact I|exact Hkd|reflexivity|exact Hl|exact Hd]).
    cbn [run step]. unfold step_content_length. change (p_clen (after_name kd n p)) with (p_clen p). destruct crlf; cbn [eol app] in *.
    + rewrite clen_stop by (try exact Hd; try discriminate; reflexivity). change (Byte.eqb CR CR) with true. cbv iota zeta.
      fuel f. cbn [run step]. unfold step_content_length_cr. change (Byte.eqb LF LF) with true. cbv iota.
      apply IH; [exact N|rewrite !app_length in L; cbn [List.length] in L; rewrite !app_length in L; cbn [List.length] in L; lia].
    + rewrite clen_stop by (try exact Hd; try discriminate; reflexivity). change (Byte.eqb LF CR) with false. change (Byte.eqb LF LF) with true. cbv iota zeta.
      apply IH; [exact N|rewrite !app_length in L; cbn [List.length] in L; rewrite !app_length in L; cbn [List.length] in L; lia].
Qed.
End Arrive.
