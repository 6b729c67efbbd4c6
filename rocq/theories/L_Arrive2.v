(* Every stream has a verdict; header lines in several reads. *)
From Verif Require Import M_Base L_Base M_Status M_Method M_Proto M_Uri M_KeyValue M_Query M_Request
  M_Parser S_Parser S_Head S_Split S_Verdict S_Arrive L_Parser L_Head L_Uri L_Loose L_Tables L_Safe L_Split L_Refuse L_Verdict L_Arrive.
Local Arguments cut : simpl never.
Local Arguments cut_last : simpl never.
Local Open Scope Z_scope.

Lemma any_line : forall n raw, a_name n -> ~ In LF raw ->
  (exists k, raw = repeat SP k) \/ (exists l, hl_key l = n /\ raw_value l = raw /\ a_line l).
Proof.
  intros n raw Hn Hr. destruct (spaces_span raw) as (k & v & -> & Hv). destruct (last_byte v) as [c|] eqn:El.
  - right. pose proof (last_byte_some _ _ El) as Ev. destruct (Byte.eqb c CR) eqn:Ec.
    + apply beq_eq in Ec. subst c. exists (HLine n k (drop_last v) true). split; [reflexivity|]. split; [unfold raw_value; cbn [hl_spaces hl_value hl_crlf]; rewrite <- Ev; reflexivity|].
      unfold a_line. cbn [hl_key hl_value hl_crlf]. split; [exact Hn|]. split; [|split; [|discriminate]].
      * intros K. apply Hr. apply in_or_app. right. rewrite Ev. apply in_or_app. left. exact K.
      * rewrite Ev in Hv. destruct (drop_last v); [discriminate|exact Hv].
    + exists (HLine n k v false). split; [reflexivity|]. split; [unfold raw_value; cbn [hl_spaces hl_value hl_crlf]; rewrite app_nil_r; reflexivity|].
      unfold a_line. cbn [hl_key hl_value hl_crlf]. split; [exact Hn|]. split; [|split; [exact Hv|]].
      * intros K. apply Hr. apply in_or_app. right. exact K.
      * intros _. split; [intros ->; discriminate El|]. rewrite El. intros K. injection K as ->. rewrite beq_refl in Ec. discriminate.
  - left. apply last_byte_none in El. subst v. exists k. apply app_nil_r.
Qed.
Lemma lines_all : forall lim m t, (List.length t <= m)%nat -> forall ls, exists v, LinesTell lim ls t v.
Proof.
  intros lim. induction m as [|m IH]; intros t Hm ls; [destruct t; [exists LMore; constructor|cbn [List.length] in Hm; lia]|].
  destruct t as [|c0 t]; [exists LMore; constructor|]. cbn [List.length] in Hm.
  destruct (Byte.eqb c0 LF) eqn:E0; [apply beq_eq in E0; subst c0; exists (LTaken ls t); exact (Lt_end lim ls false t)|].
  destruct (Byte.eqb c0 CR) eqn:E1.
  { apply beq_eq in E1. subst c0. destruct t as [|c t]; [exists LMore; apply Lt_cr|]. destruct (Byte.eqb c LF) eqn:E; [apply beq_eq in E; subst c; exists (LTaken ls t); exact (Lt_end lim ls true t)|].
    exists (LRefused ErrBadRequest). apply Lt_cr_other. intros ->. rewrite beq_refl in E. discriminate. }
  assert (NB : ~ a_break c0) by (intros [->| ->]; rewrite beq_refl in *; discriminate).
  destruct (cut (c0 :: t) x3a) as [[n r]|] eqn:Ec.
  2:{ assert (Hp : a_name (c0 :: t)) by (split; [apply cut_none; exact Ec|exact NB]).
      destruct (Z_le_gt_dec (keys_size ls + len (c0 :: t)) (lim_keys lim)) as [F|F].
      * exists LMore. apply Lt_name; [exact Hp|discriminate|exact F].
      * exists (LRefused ErrHeaderFieldsTooLarge). rewrite <- (app_nil_r (c0 :: t)). apply Lt_name_long; [exact Hp|left; split; [reflexivity|discriminate]|unfold name_fits; lia]. }
  apply cut_some in Ec. destruct Ec as [Et Hn].
  assert (Hp : a_name n) by (split; [exact Hn|destruct n as [|x n]; [intros [X|X]; discriminate X|cbn [app] in Et; injection Et as <- _; exact NB]]).
  rewrite Et. apply (f_equal (@List.length byte)) in Et. rewrite app_length in Et. cbn [List.length] in Et.
  destruct (Z_le_gt_dec (keys_size ls + len n) (lim_keys lim)) as [F|F].
  2:{ exists (LRefused ErrHeaderFieldsTooLarge). apply Lt_name_long; [exact Hp|right; reflexivity|unfold name_fits; lia]. }
  destruct (Z_le_gt_dec (Z.of_nat (List.length ls) + 1) (lim_headers lim)) as [A|A].
  2:{ exists (LRefused ErrTooManyHeaders). apply Lt_many; [exact Hp|exact F|unfold line_allowed; lia]. }
  destruct (counts_length n) eqn:El.
  - destruct (digits_span r) as (ds & rest & -> & Hd & [->|(c & r1 & -> & Hs & Hg)]).
    + exists LMore. apply Lt_length; auto.
    + rewrite app_length in Et. cbn [List.length] in Et. destruct (Byte.eqb c LF) eqn:X1; [apply beq_eq in X1; subst c|].
      * destruct (IH r1 ltac:(lia) (ls ++ [HLine n 0 ds false])) as (v & V). exists v. exact (Lt_length_line lim ls n ds false r1 v Hp El F A Hd V).
      * destruct (Byte.eqb c CR) eqn:X2; [apply beq_eq in X2; subst c|].
        -- destruct r1 as [|c r1]; [exists LMore; apply Lt_length; auto|]. cbn [List.length] in Et. destruct (Byte.eqb c LF) eqn:X3; [apply beq_eq in X3; subst c|].
           ++ destruct (IH r1 ltac:(lia) (ls ++ [HLine n 0 ds true])) as (v & V). exists v. exact (Lt_length_line lim ls n ds true r1 v Hp El F A Hd V).
           ++ exists (LRefused ErrBadRequest). apply Lt_length_cr; auto. intros ->. rewrite beq_refl in X3. discriminate.
        -- exists (LRefused ErrBadRequest). apply Lt_length_bad; auto; intros ->; rewrite beq_refl in *; discriminate.
  - destruct (cut r LF) as [[raw rest]|] eqn:Er.
    + apply cut_some in Er. destruct Er as [-> Hr].
      destruct (Z_le_gt_dec (values_size (map compared_line ls) + len raw) (lim_values lim)) as [V1|V1].
      2:{ exists (LRefused ErrHeaderFieldsTooLarge). apply Lt_value_long; auto; [constructor|intros [X _]; lia]. }
      destruct (Z_le_gt_dec (len raw) (lim_value lim)) as [V2|V2].
      2:{ exists (LRefused ErrHeaderFieldsTooLarge). apply Lt_value_long; auto; [constructor|intros [_ X]; lia]. }
      destruct (any_line n raw Hp Hr) as [(k & ->)|(l & Hk & Hv & Hw)].
      * exists LPanics. apply Lt_blank; auto. split; assumption.
      * rewrite app_length in Et. cbn [List.length] in Et. destruct (IH rest ltac:(lia) (ls ++ [l])) as (v & V). exists v.
        assert (X : n ++ x3a :: raw ++ LF :: rest = render_line l ++ rest) by (rewrite render_raw, Hk, Hv, <- app_assoc; cbn [app]; rewrite <- app_assoc; reflexivity). rewrite X.
        apply Lt_line; [rewrite Hk; exact El|exact Hw|rewrite Hk; exact F|exact A|rewrite Hv; split; assumption|exact V].
    + apply cut_none in Er.
      destruct (Z_le_gt_dec (values_size (map compared_line ls) + len r) (lim_values lim)) as [V1|V1].
      2:{ exists (LRefused ErrHeaderFieldsTooLarge). rewrite <- (app_nil_r r). apply Lt_value_long; auto; [constructor|intros [X _]; lia]. }
      destruct (Z_le_gt_dec (len r) (lim_value lim)) as [V2|V2].
      2:{ exists (LRefused ErrHeaderFieldsTooLarge). rewrite <- (app_nil_r r). apply Lt_value_long; auto; [constructor|intros [_ X]; lia]. }
      exists LMore. apply Lt_value; auto. split; assumption.
Qed.

(* ---- the labels of header lines, in several reads ---- *)
Definition in_lines (l : pstate) : Prop := l <> eMethod /\ l <> ePath.
Lemma lines_roomy : forall l p d, in_lines l -> roomy l p d.
Proof. intros l p d [A C]. destruct l; try exact I; contradiction. Qed.
Lemma lines_label : forall cfg l p d l' p' d', in_lines l -> step cfg l p d = Goto l' p' d' -> in_lines l'.
Proof.
  intros cfg l p d l' p' d' [A C] H. destruct l; try contradiction; cbn [step] in H.
  - unfold step_header_key in H. destruct d as [|c d]; [discriminate|]. destruct (Byte.eqb c LF); [discriminate|]. destruct (Byte.eqb c CR); [injection H as <- _ _; split; discriminate|].
    destruct (cut (c :: d) x3a) as [[k r]|]; [|destruct (buf_append _ _); discriminate]. destruct (buf_append _ _); [|discriminate]. cbn [buf_finish] in H. cbn zeta in H. destruct (_ >? _); [discriminate|].
    destruct (key_is _ _); injection H as <- _ _; split; discriminate.
  - unfold step_content_length in H. destruct (clen_loop _ _) as [n [[|c r]|]]; [discriminate| |discriminate]. cbn zeta in H. destruct (Byte.eqb c CR); [injection H as <- _ _; split; discriminate|].
    destruct (Byte.eqb c LF); [injection H as <- _ _; split; discriminate|discriminate].
  - unfold step_content_length_cr in H. destruct d as [|c d]; [discriminate|]. destruct (Byte.eqb c LF); [injection H as <- _ _; split; discriminate|discriminate].
  - unfold step_header_value in H. destruct (cut d LF) as [[v r]|].
    + destruct (buf_append _ _); [|discriminate]. destruct (_ >? _); [discriminate|]. cbn [buf_finish] in H. cbn zeta in H. destruct (last_byte _); [|discriminate]. injection H as <- _ _. split; discriminate.
    + destruct (buf_append _ _); [|discriminate]. destruct (_ >? _); discriminate.
  - unfold step_crlfcr in H. destruct d as [|c d]; [discriminate|]. destruct (Byte.eqb c LF); discriminate.
Qed.
Lemma near_lines : forall cfg f f' l p q d, near p q -> in_lines l -> (List.length d < f)%nat -> (List.length d < f')%nat ->
  rsim (run cfg f l p d) (run cfg f' l q d).
Proof.
  induction f as [|f IH]; intros f' l p q d N IL Hf Hf'; [lia|]. destruct f' as [|f']; [lia|]. cbn [run].
  assert (J : jsim (step cfg l p d) (step cfg l q d)).
  { apply step_near; [exact N| |apply lines_roomy; exact IL|apply lines_roomy; exact IL]. intros ->. destruct IL as [X _]. contradiction. }
  destruct (step cfg l p d) as [l1 p1 d1|r1] eqn:E1, (step cfg l q d) as [l2 p2 d2|r2] eqn:E2; try contradiction; [|exact J].
  destruct J as (-> & N' & ->). pose proof (step_shrinks _ _ _ _ _ _ _ E1). apply IH; [exact N'|exact (lines_label _ _ _ _ _ _ _ IL E1)|lia|lia].
Qed.
(* the next read does not end the head within a name *)
Definition goes_on (p : parser) (d : bytes) : Prop :=
  p_state p = eHeaderKey -> b_seg (p_key p) <> [] -> forall c d', d = c :: d' -> ~ a_break c.
Lemma goto_lines : forall cfg l p d d2 l' p' d', in_lines l -> step cfg l p d = Goto l' p' d' -> step cfg l p (d ++ d2) = Goto l' p' (d' ++ d2).
Proof.
  intros cfg l p d d2 l' p' d' [A C] H. destruct l; try contradiction; cbn [step] in *.
  - unfold step_header_key in *. destruct d as [|c d]; [discriminate|]. cbn [app]. destruct (Byte.eqb c LF); [discriminate|]. destruct (Byte.eqb c CR); [injection H as <- <- <-; reflexivity|].
    destruct (cut (c :: d) x3a) as [[k r]|] eqn:E; [|destruct (buf_append (p_key p) (c :: d)); discriminate]. apply (cut_more _ _ _ _ d2) in E. cbn [app] in E. rewrite E.
    destruct (buf_append (p_key p) k) as [b|]; [|discriminate]. cbn [buf_finish] in *. cbn zeta in *. destruct (_ >? _); [discriminate|]. destruct (key_is _ _); injection H as <- <- <-; reflexivity.
  - unfold step_content_length in *. destruct (clen_loop (p_clen p) d) as [n [r|]] eqn:E; [|discriminate]. rewrite (clen_more _ _ _ _ d2 E). cbn zeta in *. destruct r as [|c r]; [discriminate|]. cbn [app].
    destruct (Byte.eqb c CR); [injection H as <- <- <-; reflexivity|]. destruct (Byte.eqb c LF); [injection H as <- <- <-; reflexivity|discriminate].
  - unfold step_content_length_cr in *. destruct d as [|c d]; [discriminate|]. cbn [app]. destruct (Byte.eqb c LF); [injection H as <- <- <-; reflexivity|discriminate].
  - unfold step_header_value in *. destruct (cut d LF) as [[m r]|] eqn:E.
    + rewrite (cut_more _ _ _ _ d2 E). destruct (buf_append (p_val p) m) as [b|]; [|discriminate]. destruct (_ >? _); [discriminate|]. cbn [buf_finish] in *. cbn zeta in *.
      destruct (last_byte _); [|discriminate]. injection H as <- <- <-. reflexivity.
    + destruct (buf_append (p_val p) d) as [b|]; [|discriminate]. destruct (_ >? _); discriminate.
  - unfold step_crlfcr in H. destruct d as [|c d]; [discriminate|]. destruct (Byte.eqb c LF); discriminate.
Qed.
Lemma ret_lines : forall cfg l p d d2 r, in_lines l -> step cfg l p d = Ret r -> rmore d2 r (step cfg l p (d ++ d2)).
Proof.
  intros cfg l p d d2 r [A C] H. destruct l; try contradiction; cbn [step] in *.
  - unfold step_header_key in *. destruct d as [|c d]; [injection H as <-; exact I|]. cbn [app]. destruct (Byte.eqb c LF); [injection H as <-; reflexivity|]. destruct (Byte.eqb c CR); [discriminate|].
    destruct (cut (c :: d) x3a) as [[k rest]|] eqn:E.
    + apply (cut_more _ _ _ _ d2) in E. cbn [app] in E. rewrite E.
      destruct (buf_append (p_key p) k) as [b|]; [|injection H as <-; eexists; split; reflexivity]. cbn [buf_finish] in *. cbn zeta in *. destruct (_ >? _); [injection H as <-; eexists; split; reflexivity|]. destruct (key_is _ _); discriminate.
    + pose proof (cut_later _ _ d2 E) as E2. cbn [app] in E2. rewrite E2. destruct (buf_append (p_key p) (c :: d)) as [b|] eqn:Eb; [injection H as <-; exact I|].
      injection H as <-. destruct (cut d2 x3a) as [[k rest]|].
      * pose proof (append_full _ _ k Eb) as Y. cbn [app] in Y. cbn [app]. rewrite Y. eexists. split; reflexivity.
      * pose proof (append_full _ _ d2 Eb) as Y. cbn [app] in Y. rewrite Y. eexists. split; reflexivity.
  - unfold step_content_length in *. destruct (clen_loop (p_clen p) d) as [n [rest|]] eqn:E; [|injection H as <-; exact I]. rewrite (clen_more _ _ _ _ d2 E). cbn zeta in *. destruct rest as [|c rest].
    + exfalso. revert E. clear. generalize (p_clen p). induction d as [|c d IH]; intros z E; unfold clen_loop in E; fold clen_loop in E; [discriminate|].
      destruct (Byte.eqb c SP); [exact (IH _ E)|]. destruct (is_digit c); [exact (IH _ E)|]. discriminate.
    + cbn [app]. destruct (Byte.eqb c CR); [discriminate|]. destruct (Byte.eqb c LF); [discriminate|]. injection H as <-. eexists. split; reflexivity.
  - unfold step_content_length_cr in *. destruct d as [|c d]; [injection H as <-; exact I|]. cbn [app]. destruct (Byte.eqb c LF); [discriminate|]. injection H as <-. eexists. split; reflexivity.
  - unfold step_header_value in *. destruct (cut d LF) as [[m rest]|] eqn:E.
    + rewrite (cut_more _ _ _ _ d2 E). destruct (buf_append (p_val p) m) as [b|]; [|injection H as <-; eexists; split; reflexivity]. destruct (_ >? _); [injection H as <-; eexists; split; reflexivity|]. cbn [buf_finish] in *. cbn zeta in *.
      destruct (last_byte _); [discriminate|]. injection H as <-. reflexivity.
    + rewrite (cut_later _ _ d2 E). destruct (buf_append (p_val p) d) as [b|] eqn:Eb.
      * destruct (buf_seglen b >? c_max_value cfg) eqn:Es; [|injection H as <-; exact I]. injection H as <-.
        assert (F : forall e b', buf_append (p_val p) (d ++ e) = Some b' -> (buf_seglen b' >? c_max_value cfg) = true).
        { intros e b' Hb. apply append_seg in Hb. apply append_seg in Eb. unfold buf_seglen in *. rewrite Hb, !len_app. rewrite Eb, len_app in Es. pose proof (len_nonneg e).
          apply Z.gtb_lt in Es. apply Z.gtb_lt. lia. }
        destruct (cut d2 LF) as [[v rest]|].
        -- destruct (buf_append (p_val p) (d ++ v)) eqn:Ev; [rewrite (F _ _ Ev)|]; eexists; split; reflexivity.
        -- destruct (buf_append (p_val p) (d ++ d2)) eqn:Ev; [rewrite (F _ _ Ev)|]; eexists; split; reflexivity.
      * injection H as <-. destruct (cut d2 LF) as [[v rest]|]; [rewrite (append_full _ _ v Eb)|rewrite (append_full _ _ d2 Eb)]; eexists; split; reflexivity.
  - unfold step_crlfcr in *. destruct d as [|c d]; [injection H as <-; exact I|]. cbn [app]. destruct (Byte.eqb c LF); injection H as <-; [reflexivity|eexists; split; reflexivity].
Qed.
(* a step that runs out of bytes, goes on with the next ones *)
Lemma pend_lines : forall cfg l p d d2 p', in_lines l -> step cfg l p d = Ret (RPending p') -> goes_on p' d2 ->
  in_lines (p_state p') /\ jsim (step cfg l p (d ++ d2)) (step cfg (p_state p') p' d2).
Proof.
  intros cfg l p d d2 p' [A C] H GO. destruct l; try contradiction; cbn [step] in H.
  - unfold step_header_key in H. destruct d as [|c d].
    + injection H as <-. cbn [set_p_state p_state]. split; [split; discriminate|]. apply step_near; [eexists eHeaderKey, (b_done (p_start p)); destruct p as [s [? ? ?] k v hk hn cl r]; reflexivity|discriminate|exact I|exact I].
    + destruct (Byte.eqb c LF) eqn:E1; [discriminate|]. destruct (Byte.eqb c CR) eqn:E2; [discriminate|].
      destruct (cut (c :: d) x3a) as [[k rest]|] eqn:E.
      { destruct (buf_append (p_key p) k) as [b|]; [|discriminate]. cbn [buf_finish] in H. cbn zeta in H. destruct (_ >? _); [discriminate|]. destruct (key_is _ _); discriminate. }
      destruct (buf_append (p_key p) (c :: d)) as [b|] eqn:Eb; [|discriminate]. injection H as <-. cbn [set_p_state p_state].
      assert (Sg : exists x g, b_seg b = x :: g). { apply append_seg in Eb. destruct (b_seg (p_key p)); cbn [app] in Eb; rewrite Eb; eauto. }
      split; [split; discriminate|].
      cbn [step]. unfold step_header_key. cbn [app]. rewrite E1, E2. pose proof (cut_later _ _ d2 E) as E3. cbn [app] in E3. rewrite E3.
      destruct d2 as [|c2 d2].
      * cbn [cut]. rewrite app_nil_r, Eb. split; [eexists eHeaderKey, (b_done (p_start p)); destruct p as [s [? ? ?] k v hk hn cl r]; reflexivity|reflexivity].
      * assert (NB : ~ a_break c2) by (apply (GO eq_refl) with (d' := d2); [cbn [set_p_state set_p_key p_key]; destruct Sg as (x & g & ->); discriminate|reflexivity]).
        assert (F1 : Byte.eqb c2 LF = false) by (apply beq_neq; intros ->; apply NB; right; reflexivity). assert (F2 : Byte.eqb c2 CR = false) by (apply beq_neq; intros ->; apply NB; left; reflexivity). rewrite F1, F2. cbn [set_p_state set_p_key p_key].
        destruct (cut (c2 :: d2) x3a) as [[k rest]|].
        -- pose proof (append_more _ _ _ k Eb) as Y. cbn [app] in Y. cbn [app]. rewrite Y. destruct (buf_append b k) as [b2|]; [|split; reflexivity]. cbn [buf_finish]. cbn zeta. cbn [set_p_hnum set_p_hkey set_p_key p_hnum].
           destruct (_ >? _); [split; reflexivity|]. destruct (key_is _ _); (split; [reflexivity|]; split; [eexists eHeaderKey, (b_done (p_start p)); destruct p as [s [? ? ?] k0 v hk hn cl r]; reflexivity|reflexivity]).
        -- pose proof (append_more _ _ _ (c2 :: d2) Eb) as Y. cbn [app] in Y. rewrite Y. destruct (buf_append b (c2 :: d2)) as [b2|]; [|split; reflexivity].
           split; [eexists eHeaderKey, (b_done (p_start p)); destruct p as [s [? ? ?] k0 v hk hn cl r]; reflexivity|reflexivity].
  - unfold step_content_length in H. destruct (clen_loop (p_clen p) d) as [n [rest|]] eqn:E.
    { cbn zeta in H. destruct rest as [|c rest]; [discriminate|]. destruct (Byte.eqb c CR); [discriminate|]. destruct (Byte.eqb c LF); discriminate. }
    injection H as <-. cbn [set_p_state p_state]. split; [split; discriminate|].
    cbn [step]. unfold step_content_length. rewrite (clen_later _ _ _ d2 E). cbn [set_p_state set_p_clen p_clen].
    destruct (clen_loop n d2) as [n2 [rest|]]; [|split; [eexists eContentLength, (b_done (p_start p)); destruct p as [s [? ? ?] k v hk hn cl r]; reflexivity|reflexivity]].
    cbn zeta. destruct rest as [|c rest]; [exact I|]. destruct (Byte.eqb c CR); [|destruct (Byte.eqb c LF)].
    + split; [reflexivity|]. split; [eexists eContentLength, (b_done (p_start p)); destruct p as [s [? ? ?] k v hk hn cl r]; reflexivity|reflexivity].
    + split; [reflexivity|]. split; [eexists eContentLength, (b_done (p_start p)); destruct p as [s [? ? ?] k v hk hn cl r]; reflexivity|reflexivity].
    + split; reflexivity.
  - unfold step_content_length_cr in H. destruct d as [|c d]; [|destruct (Byte.eqb c LF); discriminate]. injection H as <-. cbn [set_p_state p_state]. split; [split; discriminate|].
    apply step_near; [eexists eContentLengthCR, (b_done (p_start p)); destruct p as [s [? ? ?] k v hk hn cl r]; reflexivity|discriminate|exact I|exact I].
  - unfold step_header_value in H. destruct (cut d LF) as [[m rest]|] eqn:E.
    { destruct (buf_append (p_val p) m) as [b|]; [|discriminate]. destruct (_ >? _); [discriminate|]. cbn [buf_finish] in H. cbn zeta in H. destruct (last_byte _); discriminate. }
    destruct (buf_append (p_val p) d) as [b|] eqn:Eb; [|discriminate]. destruct (_ >? _); [discriminate|]. injection H as <-. cbn [set_p_state p_state].
    split; [split; discriminate|].
    cbn [step]. unfold step_header_value. rewrite (cut_later _ _ d2 E). cbn [set_p_state set_p_val p_val].
    destruct (cut d2 LF) as [[v rest]|].
    + rewrite (append_more _ _ _ v Eb). destruct (buf_append b v) as [b2|]; [|split; reflexivity]. destruct (_ >? _); [split; reflexivity|]. cbn [buf_finish]. cbn zeta.
      destruct (last_byte _); [|exact I]. split; [reflexivity|]. split; [eexists eHeaderValue, (b_done (p_start p)); destruct p as [s [? ? ?] k v0 hk hn cl r]; reflexivity|reflexivity].
    + rewrite (append_more _ _ _ d2 Eb). destruct (buf_append b d2) as [b2|]; [|split; reflexivity]. destruct (_ >? _); [split; reflexivity|].
      split; [eexists eHeaderValue, (b_done (p_start p)); destruct p as [s [? ? ?] k v0 hk hn cl r]; reflexivity|reflexivity].
  - unfold step_crlfcr in H. destruct d as [|c d]; [|destruct (Byte.eqb c LF); discriminate]. injection H as <-. cbn [set_p_state p_state]. split; [split; discriminate|].
    apply step_near; [eexists eHeaderValueCRLFCR, (b_done (p_start p)); destruct p as [s [? ? ?] k v hk hn cl r]; reflexivity|discriminate|exact I|exact I].
Qed.
(* a run over two reads *)
Definition rnext (r w : pres) (d2 : bytes) (next : parser -> pres) : Prop :=
  match r with
  | RPending p => in_lines (p_state p) /\ (goes_on p d2 -> rsim w (next p))
  | RDone p e => w = RDone p (e ++ d2)
  | RErr p e => exists q, w = RErr q e /\ p_req p = p_req q
  | RPanic => w = RPanic
  | RStuck => False
  end.
Lemma pend_label : forall cfg l p d p', in_lines l -> step cfg l p d = Ret (RPending p') -> in_lines (p_state p').
Proof.
  intros cfg l p d p' IL H. apply (pend_lines cfg l p d [] p' IL H). intros _ _ c d' X. discriminate X.
Qed.
Lemma split_lines : forall cfg d2 f f' l p d, in_lines l -> (List.length d < f)%nat -> (List.length (d ++ d2) < f')%nat ->
  rnext (run cfg f l p d) (run cfg f' l p (d ++ d2)) d2 (fun p' => parse cfg p' d2).
Proof.
  intros cfg d2. induction f as [|f IH]; intros f' l p d IL Hf Hf'; [lia|]. destruct f' as [|f']; [lia|]. cbn [run].
  destruct (step cfg l p d) as [l1 p1 d1|r1] eqn:E1.
  - rewrite (goto_lines _ _ _ _ d2 _ _ _ IL E1). pose proof (step_shrinks _ _ _ _ _ _ _ E1). rewrite app_length in Hf'.
    apply IH; [exact (lines_label _ _ _ _ _ _ _ IL E1)|lia|rewrite app_length; lia].
  - destruct r1 as [p1|p1 e1|p1 e1| |].
    + split; [exact (pend_label _ _ _ _ _ IL E1)|]. intros GO. destruct (pend_lines _ _ _ _ d2 _ IL E1 GO) as [I1 J]. unfold parse. cbn [run].
      destruct (step cfg l p (d ++ d2)) as [l2 p2 x2|r2] eqn:E2, (step cfg (p_state p1) p1 d2) as [l3 p3 x3|r3] eqn:E3; try contradiction; [|exact J].
      destruct J as (-> & N & ->). pose proof (step_shrinks _ _ _ _ _ _ _ E2). pose proof (step_shrinks _ _ _ _ _ _ _ E3).
      apply near_lines; [exact N|exact (lines_label _ _ _ _ _ _ _ I1 E3)|lia|lia].
    + pose proof (ret_lines _ _ _ _ d2 _ IL E1) as M. cbn [rmore] in M. rewrite M. reflexivity.
    + pose proof (ret_lines _ _ _ _ d2 _ IL E1) as M. cbn [rmore] in M. destruct M as (q & -> & Hq). exists q. split; [reflexivity|exact Hq].
    + pose proof (ret_lines _ _ _ _ d2 _ IL E1) as M. cbn [rmore] in M. rewrite M. reflexivity.
    + exact (step_not_stuck _ _ _ _ E1).
Qed.
