(* Which error a head gets that exceeds a limit, however it arrives. *)
From Verif Require Import M_Base L_Base M_Status M_Method M_Proto M_Uri M_KeyValue M_Query M_Request
  M_Parser S_Parser S_Head S_Split L_Head L_Uri L_Parser L_Safe L_Split L_Refuse.
Local Arguments cut : simpl never.
Local Arguments cut_last : simpl never.
Local Arguments clen_loop : simpl never.
Local Open Scope Z_scope.

(* ---- well-formed heads have named lines ---- *)
Lemma no_lf_spaces : forall k, ~ In LF (repeat SP k).
Proof. intros k H. apply repeat_spec in H. discriminate. Qed.
Lemma digits_no_lf : forall v, Forall (fun c => is_digit c = true) v -> ~ In LF v.
Proof. intros v H K. rewrite Forall_forall in H. apply H in K. discriminate. Qed.
Lemma raw_no_lf : forall l, wf_line l -> ~ In LF (raw_value l).
Proof.
  intros l (_ & _ & _ & W) H. unfold raw_value in H. rewrite !in_app_iff in H. destruct H as [H|[H|H]].
  - exact (no_lf_spaces _ H).
  - destruct (is_content_length l); [exact (digits_no_lf _ (proj1 (proj2 W)) H)|exact (proj1 W H)].
  - destruct (hl_crlf l); [destruct H as [H|[]]; discriminate|contradiction].
Qed.
Lemma render_line_raw : forall l, render_line l = hl_key l ++ x3a :: raw_value l ++ [LF].
Proof. intros l. unfold render_line, raw_value. rewrite <- !app_assoc. unfold eol. destruct (hl_crlf l); reflexivity. Qed.
Lemma eol_named : forall e t, NamedLines (eol e ++ t).
Proof. intros e t. destruct e; [apply Nl_cr|apply Nl_lf]. Qed.
Lemma lines_named : forall ls e t, Forall wf_line ls -> NamedLines (concat (map render_line ls) ++ eol e ++ t).
Proof.
  induction ls as [|l ls IH]; intros e t H; [apply eol_named|]. inversion H as [|? ? Hl Hls]; subst. cbn [map concat]. rewrite render_line_raw.
  rewrite <- !app_assoc. cbn [app]. rewrite <- !app_assoc. apply Nl_name. destruct Hl as (H1 & H2 & H3 & H4). apply Mn_colon; [repeat split; assumption|].
  apply Ml_line; [apply raw_no_lf; repeat split; assumption|]. apply IH. exact Hls.
Qed.
Lemma render_split : forall h, render_head h = method_token (h_method h) ++ SP :: line_text h ++ LF :: concat (map render_line (h_lines h)) ++ eol (h_end_crlf h).
Proof.
  intros h. unfold render_head, line_text. cbn [app]. rewrite <- !app_assoc. cbn [app]. rewrite <- !app_assoc. destruct (h_crlf h); reflexivity.
Qed.
Lemma token_no_sp : forall m, ~ In SP (method_token m).
Proof. intros m. destruct m; vm_compute; intuition discriminate. Qed.
Lemma token_name : forall m, m <> MUnknown -> method_token m <> [].
Proof. intros m H. destruct m; [contradiction|vm_compute; discriminate ..]. Qed.
Lemma head_cut : forall h t, cut (render_head h ++ t) SP = Some (method_token (h_method h), line_text h ++ LF :: concat (map render_line (h_lines h)) ++ eol (h_end_crlf h) ++ t).
Proof.
  intros h t. rewrite render_split, <- app_assoc. cbn [app]. rewrite <- app_assoc. cbn [app]. rewrite <- app_assoc. apply cut_app. apply token_no_sp.
Qed.
Lemma head_named : forall h t, wf_head h -> NamedHead (render_head h ++ t).
Proof.
  intros h t W m r H. rewrite head_cut in H. apply (f_equal (option_map snd)) in H. cbn [option_map snd] in H. injection H as <-.
  apply Ml_line; [apply line_nolf; exact W|]. apply lines_named. apply W.
Qed.
Lemma head_start : forall h t, wf_head h -> len (start_part (render_head h ++ t)) = len (method_token (h_method h)) + len (line_text h).
Proof. intros h t W. unfold start_part. rewrite head_cut. unfold line_part. rewrite cut_app by (apply line_nolf; exact W). apply len_app. Qed.
Lemma line_text_len : forall h, len (line_text h) = len (target h) + 1 + len (proto_token (h_proto h)) + (if h_crlf h then 1 else 0).
Proof. intros h. unfold line_text. rewrite len_app, len_cons, len_app. destruct (h_crlf h); [change (len [CR]) with 1|change (len []) with 0]; lia. Qed.

(* ---- one line, all of it there ---- *)
Section Over.
Variable cfg : hcfg.
Variables kmax vmax : Z.
Record At (n ku vu : Z) (p : parser) : Prop := {
  at_num : p_hnum p = n;
  at_key : b_seg (p_key p) = [] /\ len (b_done (p_key p)) = ku /\ b_max (p_key p) = kmax;
  at_val : b_seg (p_val p) = [] /\ len (b_done (p_val p)) = vu /\ b_max (p_val p) = vmax
}.
Definition Refuses (f : nat) (l : pstate) (p : parser) (d : bytes) : Prop := exists q e, run cfg f l p d = RErr q e /\ he_code e = 431%N.
Lemma clen_digits : forall d n, Forall dig_or_sp d -> forall c t, is_digit c = false -> Byte.eqb c SP = false -> exists n', clen_loop n (d ++ c :: t) = (n', Some (c :: t)).
Proof.
  induction d as [|x d IH]; intros n H c t Hc Hs; cbn [app]; unfold clen_loop; fold clen_loop.
  - rewrite Hs, Hc. eexists. reflexivity.
  - inversion H as [|? ? Hx Hd]; subst. destruct Hx as [Hx|Hx].
    + subst x. rewrite beq_refl. apply IH; assumption.
    + destruct (Byte.eqb x SP); [apply IH; assumption|]. rewrite Hx. apply IH; assumption.
Qed.
Lemma over_lines : forall ls p n ku vu e t f, Forall wf_line ls -> At n ku vu p ->
  n <= c_max_headers cfg -> ku <= kmax -> vu <= vmax ->
  ~ (n + Z.of_nat (List.length ls) <= c_max_headers cfg /\ ku + keys_size ls <= kmax /\ vu + values_size ls <= vmax /\
     Forall (fun l => is_content_length l = false -> len (raw_value l) <= c_max_value cfg) ls) ->
  (List.length (concat (map render_line ls) ++ eol e ++ t) < f)%nat ->
  Refuses f eHeaderKey p (concat (map render_line ls) ++ eol e ++ t).
Proof.
  induction ls as [|l ls IH]; intros p n ku vu e t f Hwf [An (Ak1 & Ak2 & Ak3) (Av1 & Av2 & Av3)] Hn Hk Hv Hx Hf.
  - exfalso. apply Hx. cbn [List.length keys_size values_size fold_right]. repeat split; try lia. constructor.
  - inversion Hwf as [|? ? Hl Hls]; subst. cbn [map concat] in *. rewrite render_line_raw in *. rewrite <- !app_assoc in *. cbn [app] in *. rewrite <- !app_assoc in *. cbn [app] in *.
    set (rest := concat (map render_line ls) ++ eol e ++ t) in *. destruct f as [|f]; [lia|]. unfold Refuses. cbn [run].
    pose proof Hl as (K1 & K2 & K3 & W).
    assert (Sk : step cfg eHeaderKey p (hl_key l ++ x3a :: raw_value l ++ LF :: rest) =
      match buf_append (p_key p) (hl_key l) with
      | None => Ret (RErr p ErrHeaderFieldsTooLarge)
      | Some b => let p := set_p_hnum (p_hnum p + 1) (set_p_hkey (b_seg b) (set_p_key (Buffer (b_done b ++ b_seg b) [] (b_max b)) p)) in
         if p_hnum p >? c_max_headers cfg then Ret (RErr p ErrTooManyHeaders)
         else if key_is (b_seg b) (B "content-length") then Goto eContentLength p (raw_value l ++ LF :: rest)
         else Goto eHeaderValue p (raw_value l ++ LF :: rest)
      end).
    { cbn [step]. unfold step_header_key. pose proof (cut_app (hl_key l) x3a (raw_value l ++ LF :: rest) K1) as C. destruct (hl_key l) as [|c k] eqn:Ek; cbn [app] in *; [rewrite C; reflexivity|].
      assert (E1 : Byte.eqb c LF = false) by (apply beq_neq; intros ->; apply K3; left; reflexivity). assert (E2 : Byte.eqb c CR = false) by (apply beq_neq; intros ->; apply K2; left; reflexivity).
      rewrite E1, E2, C. reflexivity. }
    assert (L1 : (List.length (raw_value l ++ LF :: rest) < f)%nat) by (clear - Hf; revert Hf; rewrite app_length; cbn [List.length]; lia).
    rewrite Sk. clear Sk. unfold buf_append. rewrite Ak1. change (len []) with 0. rewrite Z.add_0_r. cbn [app].
    destruct (Z.gtb_spec (len (b_done (p_key p)) + len (hl_key l)) (b_max (p_key p))) as [G|G]; [eexists _, _; split; reflexivity|].
    cbn [b_done b_seg b_max]. cbn zeta. cbn [set_p_hnum p_hnum].
    destruct (Z.gtb_spec (p_hnum p + 1) (c_max_headers cfg)) as [G2|G2]; [eexists _, _; split; reflexivity|].
    rewrite is_cl_key by exact K2. cbn [List.length] in Hx. rewrite Nat2Z.inj_succ in Hx. cbn [keys_size values_size fold_right] in Hx. fold (keys_size ls) in Hx. fold (values_size ls) in Hx.
    set (p1 := set_p_hnum _ _).
    assert (A1 : At (p_hnum p + 1) (len (b_done (p_key p)) + len (hl_key l)) (len (b_done (p_val p))) p1).
    { constructor; [reflexivity| |].
      - unfold p1. cbn. split; [reflexivity|]. rewrite len_app. split; [reflexivity|exact Ak3].
      - unfold p1. cbn. split; [exact Av1|]. split; [reflexivity|exact Av3]. }
    destruct f as [|f]; [lia|]. destruct (is_content_length l) eqn:Ecl; cbn [run].
    + (* Content-Length *)
      destruct W as (W1 & W2 & W3). unfold raw_value in *.
      assert (D : Forall dig_or_sp (repeat SP (hl_spaces l) ++ hl_value l)).
      { apply Forall_app. split; [apply Forall_forall; intros x Hxx; apply repeat_spec in Hxx; left; exact Hxx|]. eapply Forall_impl; [|exact W2]. intros x Hxx. right. exact Hxx. }
      cbn [step]. unfold step_content_length. rewrite <- !app_assoc in *. rewrite (app_assoc (repeat SP (hl_spaces l))) in *.
      destruct (hl_crlf l) eqn:Ecr; cbn [app] in *.
      * destruct (clen_digits _ (p_clen p1) D CR (LF :: rest) eq_refl eq_refl) as (n' & ->). cbn match. cbn zeta. rewrite beq_refl.
        rewrite app_length in L1. cbn [List.length] in L1. destruct f as [|f]; [lia|]. cbn [run step]. unfold step_content_length_cr. rewrite beq_refl.
        eapply IH; [exact Hls| | | | | |].
        -- destruct A1 as [B1 B2 B3]. constructor; [exact B1|exact B2|exact B3].
        -- lia.
        -- lia.
        -- lia.
        -- intros (Q1 & Q2 & Q3 & Q4). apply Hx. repeat split; try lia. constructor; [congruence|exact Q4].
        -- fold rest. lia.
      * destruct (clen_digits _ (p_clen p1) D LF rest eq_refl eq_refl) as (n' & ->). cbn match. cbn zeta. change (Byte.eqb LF CR) with false. rewrite beq_refl. cbn match.
        rewrite app_length in L1. cbn [List.length] in L1.
        eapply IH; [exact Hls| | | | | |].
        -- destruct A1 as [B1 B2 B3]. constructor; [exact B1|exact B2|exact B3].
        -- lia.
        -- lia.
        -- lia.
        -- intros (Q1 & Q2 & Q3 & Q4). apply Hx. repeat split; try lia. constructor; [congruence|exact Q4].
        -- fold rest. lia.
    + cbn [step]. unfold step_header_value. rewrite cut_app by (apply raw_no_lf; exact Hl). unfold buf_append.
      change (p_val p1) with (p_val p). rewrite Av1. change (len []) with 0. rewrite Z.add_0_r. cbn [app].
      destruct (Z.gtb_spec (len (b_done (p_val p)) + len (raw_value l)) (b_max (p_val p))) as [G3|G3]; [eexists _, _; split; reflexivity|].
      unfold buf_seglen. cbn [b_seg]. destruct (Z.gtb_spec (len (raw_value l)) (c_max_value cfg)) as [G4|G4]; [eexists _, _; split; reflexivity|].
      cbn [buf_finish b_done b_seg b_max]. cbn zeta. destruct W as (W1 & W2 & W3). destruct (raw_value_ok l W2 W3) as (c & -> & ->).
      rewrite app_length in L1. cbn [List.length] in L1.
      eapply IH; [exact Hls| | | | | |].
      * destruct A1 as [B1 B2 B3]. constructor; [exact B1|exact B2|]. cbn [set_p_req set_p_val p_val b_seg b_done b_max]. split; [reflexivity|]. split; [apply len_app|exact Av3].
      * lia.
      * lia.
      * lia.
      * intros (Q1 & Q2 & Q3 & Q4). apply Hx. repeat split; try lia. constructor; [intros _; exact G4|exact Q4].
      * fold rest. lia.
Qed.
End Over.
Lemma near_at : forall kmax vmax n ku vu p q, p_hnum q = p_hnum p -> p_key q = p_key p -> p_val q = p_val p -> At kmax vmax n ku vu p -> At kmax vmax n ku vu q.
Proof. intros kmax vmax n ku vu p q E1 E2 E3 [A B0 C]. constructor; [rewrite E1; exact A|rewrite E2; exact B0|rewrite E3; exact C]. Qed.
Lemma method_token_parse : forall m, m <> MUnknown -> method_parse (method_token m) = m.
Proof. exact method_parse_token. Qed.
Lemma over_one : forall cfg umax kmax vmax p h t, Ready umax kmax vmax p -> wf_head h -> line_fits (cfg_limits cfg umax kmax vmax) h ->
  0 <= c_max_headers cfg -> 0 <= kmax -> 0 <= vmax ->
  ~ headers_fit (cfg_limits cfg umax kmax vmax) h -> exists q e, parse cfg p (render_head h ++ t) = RErr q e /\ he_code e = 431%N.
Proof.
  intros cfg umax kmax vmax p h t R W L N0 K0 V0 X. destruct R as (R1 & R2 & R3 & R4 & R5 & R6). unfold line_fits in L. cbn [cfg_limits lim_line] in L. pose proof (line_text_len h) as TL.
  pose proof W as (Wm & _). unfold parse. rewrite R1. cbn [run].
  assert (S1 : step cfg eMethod p (render_head h ++ t) = Goto ePath (set_p_req (set_method (h_method h) (p_req p)) p) (line_text h ++ LF :: concat (map render_line (h_lines h)) ++ eol (h_end_crlf h) ++ t)).
  { cbn [step]. unfold step_method. rewrite head_cut, R2. unfold buf_seglen. cbn [b_seg]. change (len [] =? 0) with true. cbn match.
    pose proof (token_name _ Wm) as T. pose proof (method_token_parse _ Wm) as P. destruct (method_token (h_method h)) as [|x y]; [contradiction|]. rewrite P. destruct (h_method h); try reflexivity. contradiction. }
  rewrite S1. set (p1 := set_p_req _ p). set (lt := concat (map render_line (h_lines h)) ++ eol (h_end_crlf h) ++ t).
  assert (LL : (S (S (List.length lt)) <= List.length (render_head h ++ t))%nat).
  { rewrite render_split. unfold lt. repeat (rewrite app_length; cbn [List.length]). clear. unfold bytes in *. lia. }
  destruct (List.length (render_head h ++ t)) as [|f]; [lia|]. cbn [run step]. unfold step_path. rewrite cut_app by (apply line_nolf; exact W).
  unfold buf_append. change (p_start p1) with (p_start p). rewrite R2. cbn [b_done b_seg b_max]. change (len []) with 0.
  pose proof (len_nonneg (method_token (h_method h))). destruct (Z.gtb_spec (0 + 0 + len (line_text h)) umax) as [G|G]; [lia|]. cbn [buf_finish b_done b_seg b_max app].
  pose proof (line_ok h W) as LO. unfold LineOK in LO. rewrite LO.
  apply (over_lines cfg kmax vmax (h_lines h) _ 0 0 0); [apply W| |lia|lia|lia| |fold lt; lia].
  - constructor; [exact R5| |].
    + cbn. rewrite R3. repeat split.
    + cbn. rewrite R4. repeat split.
  - rewrite !Z.add_0_l. exact X.
Qed.
Lemma over_headers : forall cfg umax kmax vmax p h reads t, Ready umax kmax vmax p -> wf_head h -> line_fits (cfg_limits cfg umax kmax vmax) h ->
  0 <= c_max_headers cfg -> 0 <= kmax -> 0 <= vmax ->
  ~ headers_fit (cfg_limits cfg umax kmax vmax) h -> concat reads = render_head h ++ t ->
  exists q e, fst (feed cfg p reads) = RErr q e /\ he_code e = 431%N.
Proof.
  intros cfg umax kmax vmax p h reads t R W L N0 K0 V0 X E.
  destruct (over_one cfg umax kmax vmax p h t R W L N0 K0 V0 X) as (q & e & P & C).
  assert (S0 : SameOutcome (feed cfg p reads) (feed cfg p [render_head h ++ t])).
  { apply (arrival cfg umax kmax vmax); [exact R|cbn [concat]; rewrite app_nil_r; exact E|rewrite E; apply head_named; exact W|].
    rewrite E, (head_start h t W), line_text_len. unfold line_fits in L. cbn [cfg_limits lim_line] in L. lia. }
  rewrite feed_one, P in S0. unfold SameOutcome in S0. cbn [fst] in S0. destruct (fst (feed cfg p reads)); try contradiction. destruct S0 as [-> _]. eexists _, _. split; [reflexivity|exact C].
Qed.

(* ---- request lines that are too long ---- *)
Lemma append_over : forall b d, len (b_done b) + len (b_seg b) + len d > b_max b -> buf_append b d = None.
Proof. intros b d H. unfold buf_append. destruct (Z.gtb_spec (len (b_done b) + len (b_seg b) + len d) (b_max b)); [reflexivity|lia]. Qed.
Lemma append_ok : forall b d b', buf_append b d = Some b' -> b' = Buffer (b_done b) (b_seg b ++ d) (b_max b) /\ len (b_done b) + len (b_seg b) + len d <= b_max b.
Proof. intros b d b' H. unfold buf_append in H. destruct (Z.gtb_spec (len (b_done b) + len (b_seg b) + len d) (b_max b)); [discriminate|]. injection H as <-. split; [reflexivity|assumption]. Qed.
(* the path label, from within a read or at the beginning of one *)
Lemma over_step_path : forall p l d, used p + len l > b_max (p_start p) -> ~ In LF l -> (exists x, d = l ++ x) -> step_path p d = Ret (RErr p ErrURITooLong).
Proof.
  intros p l d U Hl (x & ->). unfold step_path, used in *. rewrite (cut_later l LF x) by (apply cut_none; exact Hl).
  destruct (cut x LF) as [[a b]|]; rewrite append_over; try reflexivity; rewrite len_app; [pose proof (len_nonneg a)|pose proof (len_nonneg x)]; lia.
Qed.
Lemma part_step_path : forall p l d l', l = d ++ l' -> ~ In LF l -> (step_path p d = Ret (RErr p ErrURITooLong)) \/
  (exists q, step_path p d = Ret (RPending q) /\ p_state q = ePath /\ used q = used p + len d /\ used q <= b_max (p_start q) /\ b_max (p_start q) = b_max (p_start p)).
Proof.
  intros p l d l' -> Hl. unfold step_path. assert (E : cut d LF = None) by (apply cut_none; intros K; apply Hl; apply in_or_app; left; exact K). rewrite E.
  destruct (buf_append (p_start p) d) as [b|] eqn:Eb; [|left; reflexivity]. right. destruct (append_ok _ _ _ Eb) as [-> Lb]. eexists. split; [reflexivity|].
  unfold used. cbn. rewrite len_app. repeat split; lia.
Qed.
Lemma over_path : forall cfg t reads l p, p_state p = ePath -> used p <= b_max (p_start p) -> used p + len l > b_max (p_start p) -> ~ In LF l -> concat reads = l ++ t ->
  exists q, fst (feed cfg p reads) = RErr q ErrURITooLong.
Proof.
  intros cfg t. induction reads as [|d reads IH]; intros l p Hs U1 U2 Hl E.
  - cbn [concat] in E. symmetry in E. apply app_eq_nil in E. destruct E as [-> _]. change (len []) with 0 in U2. lia.
  - cbn [concat feed] in *. unfold parse. rewrite Hs. destruct (app_eq_app _ _ _ _ E) as (x & [[Ed Et]|[El Et]]).
    + rewrite (run_ret cfg _ ePath p d _ (over_step_path p l d U2 Hl (ex_intro _ x Ed))). exists p. reflexivity.
    + destruct (part_step_path p l d x El Hl) as [S0|(q & S0 & Q1 & Q2 & Q3 & Q4)]; rewrite (run_ret cfg _ ePath p d _ S0); [exists p; reflexivity|].
      apply (IH x q Q1); [exact Q3| |intros K; apply Hl; rewrite El; apply in_or_app; right; exact K|exact Et]. rewrite Q2, Q4. rewrite El, len_app in U2. lia.
Qed.
Lemma over_line : forall cfg t l m reads m0 p, p_state p = eMethod -> b_seg (p_start p) = m0 -> concat reads = m ++ SP :: l ++ t -> In (m0 ++ m) method_names ->
  ~ In SP m -> ~ In LF l -> used p + len m <= b_max (p_start p) -> len l > b_max (p_start p) -> exists q, fst (feed cfg p reads) = RErr q ErrURITooLong.
Proof.
  intros cfg t l m reads. revert m. induction reads as [|d reads IH]; intros m m0 p Hs Hm0 E Hn Hm Hl U L; [exfalso; exact (nil_not_cut _ _ _ _ E)|].
  cbn [concat] in E. cbn [feed]. unfold parse. rewrite Hs. destruct (cut d SP) as [[a b]|] eqn:Ec.
  - destruct (cut_first _ _ _ _ _ E Hm _ _ Ec) as [-> Eb].
    assert (F : exists p1, step cfg eMethod p d = Goto ePath p1 b /\ used p1 <= b_max (p_start p1) /\ b_max (p_start p1) = b_max (p_start p)).
    { cbn [step]. unfold step_method. rewrite Ec. cbn zeta. pose proof (method_known _ Hn) as Hk. unfold buf_seglen. rewrite Hm0. pose proof (len_nonneg m) as Lm. destruct m0 as [|x0 m0].
      - change (len [] =? 0) with true. cbn match. cbn [app] in *. destruct m as [|x m]; [exfalso; apply Hk; reflexivity|]. destruct (method_parse (x :: m)); try contradiction; eexists; (split; [reflexivity|]); unfold used in *; cbn; rewrite Hm0 in *; split; lia.
      - destruct (Z.eqb_spec (len (x0 :: m0)) 0) as [Z0|_]; [rewrite len_cons in Z0; pose proof (len_nonneg m0); lia|].
        rewrite append_room by (unfold used in U; lia). cbn [buf_finish b_seg b_done b_max]. rewrite Hm0. destruct ((x0 :: m0) ++ m) as [|y0 y] eqn:Ey; [discriminate|].
        assert (Ly : len (y0 :: y) = len (x0 :: m0) + len m) by (rewrite <- Ey, len_app; reflexivity). unfold used in U. rewrite Hm0 in U.
        destruct (method_parse (y0 :: y)); try contradiction; eexists; (split; [reflexivity|]); unfold used; cbn [set_p_req set_p_start p_start b_done b_seg b_max]; rewrite len_app, Ly; change (len []) with 0; split; lia. }
    destruct F as (p1 & F & U1 & B1). assert (Hd : exists n, List.length d = S n) by (destruct d as [|c d]; [discriminate|]; exists (List.length d); reflexivity). destruct Hd as (n & Hd). rewrite Hd. cbn [run]. rewrite F.
    assert (U2 : used p1 + len l > b_max (p_start p1)) by (unfold used; pose proof (len_nonneg (b_done (p_start p1))); pose proof (len_nonneg (b_seg (p_start p1))); lia).
    change (step cfg ePath p1 b) with (step_path p1 b).
    destruct (app_eq_app _ _ _ _ Eb) as (x & [[Ed Et]|[El Et]]).
    + rewrite (over_step_path p1 l b U2 Hl (ex_intro _ x Ed)). exists p1. reflexivity.
    + destruct (part_step_path p1 l b x El Hl) as [S0|(q & S0 & Q1 & Q2 & Q3 & Q4)]; rewrite S0; [exists p1; reflexivity|].
      apply (over_path cfg t reads x q Q1); [exact Q3| |intros K; apply Hl; rewrite El; apply in_or_app; right; exact K|exact Et]. rewrite Q2, Q4. rewrite El, len_app in U2. lia.
  - destruct (cut_short _ _ _ _ _ E Hm Ec) as (m' & -> & E'). rewrite len_app in U. pose proof (len_nonneg m').
    assert (S0 : step cfg eMethod p d = Ret (RPending (set_p_start (Buffer (b_done (p_start p)) (b_seg (p_start p) ++ d) (b_max (p_start p))) p))).
    { cbn [step]. unfold step_method. rewrite Ec, append_room by (unfold used in U; lia). reflexivity. }
    rewrite (run_ret cfg _ eMethod p d _ S0). apply (IH m' (m0 ++ d)); [exact Hs|cbn; rewrite Hm0; reflexivity|exact E'|rewrite <- app_assoc; exact Hn|intros K; apply Hm; apply in_or_app; right; exact K|exact Hl| |exact L].
    unfold used in *. cbn [set_p_start p_start b_done b_seg b_max]. rewrite len_app. lia.
Qed.
Lemma long_unknown : forall m, len m > 7 -> method_parse m = MUnknown.
Proof. intros m H. apply method_unknown. intros K. unfold method_names in K. cbn [In] in K. repeat (destruct K as [<-|K]; [vm_compute in H; discriminate|]). contradiction. Qed.
Lemma over_method : forall cfg t reads m p, p_state p = eMethod -> used p <= b_max (p_start p) -> used p + len m > b_max (p_start p) -> 7 <= b_max (p_start p) -> b_done (p_start p) = [] ->
  ~ In SP m -> concat reads = m ++ t -> exists q e, fst (feed cfg p reads) = RErr q e /\ (e = ErrTooLongRequestLine \/ e = ErrMethodNotImplemented).
Proof.
  intros cfg t. induction reads as [|d reads IH]; intros m p Hs U1 U2 U7 Hd Hm E.
  - cbn [concat] in E. symmetry in E. apply app_eq_nil in E. destruct E as [-> _]. change (len []) with 0 in U2. lia.
  - cbn [concat feed] in *. unfold parse. rewrite Hs. destruct (app_eq_app _ _ _ _ E) as (x & [[Ed Et]|[El Et]]).
    + assert (S0 : exists q e, step cfg eMethod p d = Ret (RErr q e) /\ (e = ErrTooLongRequestLine \/ e = ErrMethodNotImplemented)).
      { subst d. cbn [step]. unfold step_method. rewrite (cut_later m SP x) by (apply cut_none; exact Hm). unfold used in *. destruct (cut x SP) as [[a b]|].
        - cbn zeta. pose proof (len_nonneg a). unfold buf_seglen. destruct (Z.eqb_spec (len (b_seg (p_start p))) 0) as [Z0|Z0].
          + rewrite Hd in *. change (len []) with 0 in *. rewrite (long_unknown (m ++ a)) by (rewrite len_app; lia).
            destruct (m ++ a) as [|y0 y] eqn:Ey; [apply (f_equal len) in Ey; rewrite len_app in Ey; change (len []) with 0 in Ey; lia|]. eexists _, _. split; [reflexivity|right; reflexivity].
          + rewrite append_over by (rewrite len_app; lia). eexists _, _. split; [reflexivity|left; reflexivity].
        - pose proof (len_nonneg x). rewrite append_over by (rewrite len_app; lia). eexists _, _. split; [reflexivity|left; reflexivity]. }
      destruct S0 as (q & e & S0 & He). rewrite (run_ret cfg _ eMethod p d _ S0). exists q, e. split; [reflexivity|exact He].
    + assert (Ec : cut d SP = None) by (apply cut_none; intros K; apply Hm; rewrite El; apply in_or_app; left; exact K).
      destruct (buf_append (p_start p) d) as [b|] eqn:Eb.
      * destruct (append_ok _ _ _ Eb) as [-> Lb].
        assert (S0 : step cfg eMethod p d = Ret (RPending (set_p_start (Buffer (b_done (p_start p)) (b_seg (p_start p) ++ d) (b_max (p_start p))) p))) by (cbn [step]; unfold step_method; rewrite Ec, Eb; reflexivity).
        rewrite (run_ret cfg _ eMethod p d _ S0). rewrite El, len_app in U2. apply (IH x); [exact Hs| | |exact U7|exact Hd|intros K; apply Hm; rewrite El; apply in_or_app; right; exact K|exact Et].
        -- unfold used in *. cbn [set_p_start p_start b_done b_seg b_max]. rewrite len_app. lia.
        -- unfold used in *. cbn [set_p_start p_start b_done b_seg b_max]. rewrite len_app. lia.
      * assert (S0 : step cfg eMethod p d = Ret (RErr p ErrTooLongRequestLine)) by (cbn [step]; unfold step_method; rewrite Ec, Eb; reflexivity).
        rewrite (run_ret cfg _ eMethod p d _ S0). exists p, ErrTooLongRequestLine. split; [reflexivity|left; reflexivity].
Qed.
Lemma long_line : forall cfg umax kmax vmax p m l t reads, Ready umax kmax vmax p -> concat reads = m ++ SP :: l ++ t -> In m method_names -> len m <= umax ->
  ~ In LF l -> len l > umax -> exists q, fst (feed cfg p reads) = RErr q ErrURITooLong.
Proof.
  intros cfg umax kmax vmax p m l t reads (R1 & R2 & _) E Hm Lm Hl L. apply (over_line cfg t l m reads [] p R1); [rewrite R2; reflexivity|exact E|exact Hm| |exact Hl| |rewrite R2; exact L].
  - intros K. unfold method_names in Hm. cbn [In] in Hm. repeat (destruct Hm as [<-|Hm]; [vm_compute in K; intuition discriminate|]). contradiction.
  - unfold used. rewrite R2. cbn [b_done b_seg b_max]. change (len []) with 0. lia.
Qed.
Lemma long_method : forall cfg umax kmax vmax p m t reads, Ready umax kmax vmax p -> 7 <= umax -> concat reads = m ++ t -> ~ In SP m -> len m > umax ->
  exists q e, fst (feed cfg p reads) = RErr q e /\ (e = ErrTooLongRequestLine \/ e = ErrMethodNotImplemented).
Proof.
  intros cfg umax kmax vmax p m t reads (R1 & R2 & _) U E Hm L. apply (over_method cfg t reads m p R1); unfold used; rewrite ?R2; cbn [b_done b_seg b_max]; change (len []) with 0; try lia; try reflexivity; assumption.
Qed.
