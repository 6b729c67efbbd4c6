(* Normalization of paths and parsing of templates. *)
From Verif Require Import M_Base M_KeyValue M_Path M_Radix S_Routes L_Base.

(* ---- normalize ---- *)
Lemma nth_repeat_tail : forall (p q : bytes) i, (List.length p <= i < List.length (p ++ q))%nat ->
  nth i (p ++ q) x00 = nth (i - List.length p) q x00.
Proof. intros p q i H. apply app_nth2. lia. Qed.
Lemma norm_loop_spec : forall i p, (S i <= List.length p)%nat ->
  Forall (fun c => c = SLASH) (skipn (S i) p) ->
  (norm_loop i p = p /\ (forall j, (2 <= j < List.length p)%nat -> nth j p x00 = SLASH)) \/
  (exists q c k, p = q ++ c :: repeat SLASH k /\ (2 <= List.length q)%nat /\ c <> SLASH /\ norm_loop i p = q ++ [c]).
Proof.
  induction i as [|i IH]; intros p Hl Hs.
  - left. split; [reflexivity|]. intros j Hj.
    rewrite Forall_forall in Hs. apply Hs. rewrite <- (firstn_skipn 1 p) at 1. rewrite app_nth2; rewrite firstn_length, Nat.min_l by lia; [|lia].
    apply nth_In. rewrite skipn_length. lia.
  - destruct i as [|j].
    + left. split; [reflexivity|]. intros k Hk.
      rewrite Forall_forall in Hs. apply Hs. rewrite <- (firstn_skipn 2 p) at 1. rewrite app_nth2; rewrite firstn_length, Nat.min_l by lia; [|lia].
      apply nth_In. rewrite skipn_length. lia.
    + cbn [norm_loop]. destruct (Byte.eqb (nth (S (S j)) p x00) SLASH) eqn:E.
      * apply beq_eq in E. apply IH; [lia|].
        assert (Hd : skipn (S (S j)) p = nth (S (S j)) p x00 :: skipn (S (S (S j))) p).
        { clear -Hl. revert p Hl. generalize (S (S j)) as n. induction n as [|n IH]; intros [|x p] Hl; cbn in Hl; try lia; [reflexivity|].
          change (skipn (S n) (x :: p)) with (skipn n p). rewrite IH by lia. reflexivity. }
        rewrite Hd. constructor; assumption.
      * right. apply beq_neq in E. exists (firstn (S (S j)) p), (nth (S (S j)) p x00), (List.length (skipn (S (S (S j))) p)).
        assert (Hd : skipn (S (S j)) p = nth (S (S j)) p x00 :: skipn (S (S (S j))) p).
        { clear -Hl. revert p Hl. generalize (S (S j)) as n. induction n as [|n IH]; intros [|x p] Hl; cbn in Hl; try lia; [reflexivity|].
          change (skipn (S n) (x :: p)) with (skipn n p). rewrite IH by lia. reflexivity. }
        assert (Hr : skipn (S (S (S j))) p = repeat SLASH (List.length (skipn (S (S (S j))) p))).
        { clear -Hs. induction (skipn (S (S (S j))) p) as [|x l IHl]; [reflexivity|]. inversion Hs; subst. cbn [List.length repeat]. f_equal. auto. }
        split; [|split; [|split]].
        -- rewrite <- Hr, <- Hd. symmetry. apply firstn_skipn.
        -- rewrite firstn_length, Nat.min_l by lia. lia.
        -- exact E.
        -- rewrite <- (firstn_skipn (S (S j)) p) at 1. rewrite Hd.
           replace (S (S (S j))) with (List.length (firstn (S (S j)) p) + 1)%nat at 1 by (rewrite firstn_length, Nat.min_l by lia; lia).
           rewrite firstn_app_2. reflexivity.
Qed.
(* the two cases of normalization *)
Lemma normalize_cases : forall p,
  (normalize p = p /\ (forall j, (2 <= j < List.length p)%nat -> nth j p x00 = SLASH)) \/
  (exists q c k, p = q ++ c :: repeat SLASH k /\ (2 <= List.length q)%nat /\ c <> SLASH /\ normalize p = q ++ [c]).
Proof.
  intros p. destruct p as [|x p]; [left; split; [reflexivity|intros j H; cbn in H; lia]|].
  unfold normalize. apply norm_loop_spec; cbn [List.length]; [lia|].
  rewrite skipn_all2; [constructor|cbn [List.length]; lia].
Qed.
Theorem normalize_strips : forall p, exists k, p = normalize p ++ repeat SLASH k.
Proof.
  intros p. destruct (normalize_cases p) as [[-> _]|(q & c & k & -> & _ & _ & ->)].
  - exists 0%nat. cbn. rewrite app_nil_r. reflexivity.
  - exists k. rewrite <- app_assoc. reflexivity.
Qed.
Theorem normalize_eats : forall q c k, (2 <= List.length q)%nat -> c <> SLASH -> normalize (q ++ c :: repeat SLASH k) = q ++ [c].
Proof.
  intros q c k Hq Hc. destruct (normalize_cases (q ++ c :: repeat SLASH k)) as [[_ H]|(q' & c' & k' & E & Hq' & Hc' & ->)].
  - exfalso. apply Hc. rewrite <- (H (List.length q)).
    + rewrite app_nth2, Nat.sub_diag by lia. reflexivity.
    + rewrite app_length. cbn. lia.
  - assert (K : forall k k' (q q' : bytes) c c', c <> SLASH -> c' <> SLASH -> q ++ c :: repeat SLASH k = q' ++ c' :: repeat SLASH k' -> q ++ [c] = q' ++ [c']).
    { clear. assert (R : forall k (q : bytes) c, q ++ c :: repeat SLASH (S k) = (q ++ c :: repeat SLASH k) ++ [SLASH]).
      { intros k q c. rewrite <- app_assoc. cbn [app]. f_equal. f_equal. clear. induction k; [reflexivity|]. cbn [repeat app] in *. f_equal. exact IHk. }
      induction k as [|k IH]; intros [|k'] q q' c c' Hc Hc' E.
      - exact E.
      - exfalso. rewrite R in E. change (repeat SLASH 0) with (@nil byte) in E. apply app_inj_tail in E. destruct E as [_ E]. contradiction.
      - exfalso. rewrite R in E. change (repeat SLASH 0) with (@nil byte) in E. apply app_inj_tail in E. destruct E as [_ E]. congruence.
      - rewrite !R in E. apply app_inj_tail in E. destruct E as [E _]. eapply IH; eauto. }
    symmetry. eapply K; eauto.
Qed.
Theorem normalize_twice : forall p, normalize (normalize p) = normalize p.
Proof.
  intros p. destruct (normalize_cases p) as [[E _]|(q & c & k & _ & Hq & Hc & ->)]; [rewrite !E; reflexivity|].
  apply (normalize_eats q c 0 Hq Hc).
Qed.
Lemma normalize_nonempty : forall p, p <> [] -> normalize p <> [].
Proof.
  intros p Hp. destruct (normalize_cases p) as [[-> _]|(q & c & k & _ & _ & _ & ->)]; [exact Hp|]. destruct q; discriminate.
Qed.
Lemma normalize_head : forall c p, exists p', normalize (c :: p) = c :: p'.
Proof.
  intros c p. destruct (normalize_cases (c :: p)) as [[-> _]|(q & d & k & E & Hq & _ & ->)]; [exists p; reflexivity|].
  destruct q as [|x q]; [cbn in Hq; lia|]. injection E as <- _. exists (q ++ [d]). reflexivity.
Qed.
(* ending in something other than a slash, or too short: nothing to strip *)
Lemma normalize_id : forall p c, c <> SLASH -> normalize (p ++ [c]) = p ++ [c].
Proof.
  intros p c Hc. destruct (Nat.le_gt_cases 2 (List.length p)) as [H|H]; [apply (normalize_eats p c 0 H Hc)|].
  unfold normalize. rewrite app_length. cbn [List.length].
  destruct p as [|a [|b p]]; cbn in H; try lia; reflexivity.
Qed.

(* ---- templates ---- *)
Lemma run_static : forall s cur rest acc, ~ In SLASH s -> ~ In LBRACE s ->
  tparse_loop TStatic cur (s ++ rest) acc = tparse_loop TStatic (cur ++ s) rest acc.
Proof.
  induction s as [|c s IH]; intros cur rest acc Hs Hl; cbn [app tparse_loop]; [rewrite app_nil_r; reflexivity|].
  assert (c <> SLASH /\ c <> LBRACE) as [H1 H2] by (split; intros ->; [apply Hs|apply Hl]; left; reflexivity).
  apply beq_neq in H1, H2. rewrite H1, H2. rewrite IH; [|intros H; apply Hs; right; exact H|intros H; apply Hl; right; exact H].
  rewrite <- app_assoc. reflexivity.
Qed.
Lemma run_static2 : forall st s rest acc, st = TStatic \/ st = TSlash -> s <> [] -> ~ In SLASH s -> ~ In LBRACE s ->
  tparse_loop st [] (s ++ rest) acc = tparse_loop TStatic s rest acc.
Proof.
  intros st s rest acc [-> | ->] Hn Hs Hl; [apply (run_static s []); assumption|].
  destruct s as [|c s]; [contradiction|]. cbn [app tparse_loop].
  assert (c <> SLASH /\ c <> LBRACE) as [H1 H2] by (split; intros ->; [apply Hs|apply Hl]; left; reflexivity).
  apply beq_neq in H1, H2. rewrite H1, H2. apply (run_static s [c]); [intros H; apply Hs; right; exact H|intros H; apply Hl; right; exact H].
Qed.
Lemma run_dynamic : forall s cur rest acc, ~ In SLASH s -> ~ In LBRACE s -> ~ In RBRACE s ->
  tparse_loop TDynamic cur (s ++ rest) acc = tparse_loop TDynamic (cur ++ s) rest acc.
Proof.
  induction s as [|c s IH]; intros cur rest acc Hs Hl Hr; cbn [app tparse_loop]; [rewrite app_nil_r; reflexivity|].
  assert (c <> SLASH /\ c <> LBRACE /\ c <> RBRACE) as (H1 & H2 & H3) by (split; [|split]; intros ->; [apply Hs|apply Hl|apply Hr]; left; reflexivity).
  apply beq_neq in H1, H2, H3. rewrite H1, H2, H3. cbn [orb]. rewrite IH; [|intros H; apply Hs; right; exact H|intros H; apply Hl; right; exact H|intros H; apply Hr; right; exact H].
  rewrite <- app_assoc. reflexivity.
Qed.
Definition final_drop (p : bytes) : Prop := Unclosed p \/ List.length p = 1%nat.
Lemma first_brace : forall (b : byte) s, In b s -> exists a c, s = a ++ b :: c /\ ~ In b a.
Proof.
  intros b s H. induction s as [|x s IH]; [destruct H|]. destruct (byte_eq_dec x b) as [-> |Hx].
  - exists [], s. split; [reflexivity|]. intros [].
  - destruct H as [H|H]; [contradiction|]. destruct (IH H) as (a & c & -> & Ha). exists (x :: a), c. split; [reflexivity|].
    intros [H1|H1]; auto.
Qed.
(* one part followed by a slash *)
Lemma part_then : forall st p rest acc, st = TStatic \/ st = TSlash -> p <> [] -> ~ In SLASH p ->
  (exists s, seg_text s = p /\ good_seg s /\ (st = TStatic -> exists x, s = SStatic x) /\
     tparse_loop st [] (p ++ SLASH :: rest) acc = tparse_loop TSlash [] rest (acc ++ [s])) \/
  (exists e, tparse_loop st [] (p ++ SLASH :: rest) acc = inl e /\
     (BadText p \/ Unclosed p \/ (st = TStatic /\ In LBRACE p) \/ (exists a, p = LBRACE :: a ++ [RBRACE] /\ In LBRACE a))).
Proof.
  intros st p rest acc Hst Hn Hs. destruct (in_dec byte_eq_dec LBRACE p) as [Hl|Hl].
  - destruct (first_brace _ _ Hl) as (a & b & -> & Ha). destruct a as [|c a].
    + cbn [app]. destruct Hst as [-> | ->].
      * right. cbn [tparse_loop]. change (Byte.eqb LBRACE SLASH) with false. change (Byte.eqb LBRACE LBRACE) with true. eexists. split; [reflexivity|].
        right. right. left. split; [reflexivity|]. left. reflexivity.
      * cbn [tparse_loop]. change (Byte.eqb LBRACE SLASH) with false. change (Byte.eqb LBRACE LBRACE) with true. cbn iota.
        assert (Hsb : ~ In SLASH b) by (intros H; apply Hs; right; exact H).
        destruct (in_dec byte_eq_dec RBRACE b) as [Hr|Hr].
        -- destruct (first_brace _ _ Hr) as (u & v & -> & Hu).
           destruct (in_dec byte_eq_dec LBRACE u) as [Hlu|Hlu].
           ++ right. destruct (first_brace _ _ Hlu) as (u1 & u2 & -> & Hu1). exists TBadName.
              split.
              ** rewrite <- !app_assoc. rewrite run_dynamic.
                 --- cbn [app tparse_loop]. reflexivity.
                 --- intros H. apply Hsb. apply in_or_app. left. apply in_or_app. left. exact H.
                 --- exact Hu1.
                 --- intros H. apply Hu. apply in_or_app. left. exact H.
              ** destruct v as [|x v].
                 --- right. right. right. exists (u1 ++ LBRACE :: u2). split; [reflexivity|]. apply in_or_app. right. left. reflexivity.
                 --- left. right. exists (u1 ++ LBRACE :: u2), (x :: v). split; [reflexivity|]. split; [exact Hu|discriminate].
           ++ assert (Hsu : ~ In SLASH u) by (intros H; apply Hsb; apply in_or_app; left; exact H).
              rewrite <- app_assoc. rewrite run_dynamic by assumption. cbn [app tparse_loop]. change (Byte.eqb RBRACE RBRACE) with true. cbn iota.
              destruct v as [|x v].
              ** left. exists (SWild u). split; [reflexivity|]. split; [cbn; auto|]. split; [discriminate|].
                 cbn [app tparse_loop]. rewrite beq_refl. reflexivity.
              ** right. exists TNotWhole. cbn [app tparse_loop].
                 assert (x <> SLASH) by (intros ->; apply Hsb; apply in_or_app; right; right; left; reflexivity).
                 apply beq_neq in H. rewrite H. split; [reflexivity|]. left. right. exists u, (x :: v). split; [reflexivity|]. split; [exact Hu|discriminate].
        -- right. exists TBadName. destruct (in_dec byte_eq_dec LBRACE b) as [Hlb|Hlb].
           ++ destruct (first_brace _ _ Hlb) as (u1 & u2 & -> & Hu1). split.
              ** rewrite <- app_assoc. rewrite run_dynamic; [cbn [app tparse_loop]; reflexivity| |exact Hu1|].
                 --- intros H. apply Hsb. apply in_or_app. left. exact H.
                 --- intros H. apply Hr. apply in_or_app. left. exact H.
              ** right. left. exists (u1 ++ LBRACE :: u2). auto.
           ++ split; [|right; left; exists b; auto]. rewrite run_dynamic by assumption. cbn [app tparse_loop]. reflexivity.
    + right. exists TNotWhole. rewrite <- app_assoc. rewrite run_static2; [|exact Hst|discriminate| |exact Ha].
      * cbn [app tparse_loop]. split; [reflexivity|]. left. left. exists (c :: a), b. split; [reflexivity|discriminate].
      * intros H. apply Hs. apply in_or_app. left. exact H.
  - left. exists (SStatic p). split; [reflexivity|]. split; [cbn; auto|]. split; [intros _; eexists; reflexivity|].
    rewrite run_static2 by assumption. cbn [tparse_loop]. rewrite beq_refl. reflexivity.
Qed.
(* the last part *)
Lemma part_last : forall st p acc, st = TStatic \/ st = TSlash -> p <> [] -> ~ In SLASH p ->
  (exists s, seg_text s = p /\ good_seg s /\ (st = TStatic -> exists x, s = SStatic x) /\
     tparse_loop st [] p acc = inr (acc ++ match s with SStatic [_] => [] | _ => [s] end)) \/
  (tparse_loop st [] p acc = inr acc /\ Unclosed p) \/
  (exists e, tparse_loop st [] p acc = inl e /\
     (BadText p \/ (st = TStatic /\ In LBRACE p) \/ (exists a, p = LBRACE :: a /\ In LBRACE a))).
Proof.
  intros st p acc Hst Hn Hs. destruct (in_dec byte_eq_dec LBRACE p) as [Hl|Hl].
  - destruct (first_brace _ _ Hl) as (a & b & -> & Ha). destruct a as [|c a].
    + cbn [app]. destruct Hst as [-> | ->].
      * right. right. cbn [tparse_loop]. change (Byte.eqb LBRACE SLASH) with false. change (Byte.eqb LBRACE LBRACE) with true. eexists. split; [reflexivity|].
        right. left. split; [reflexivity|]. left. reflexivity.
      * cbn [tparse_loop]. change (Byte.eqb LBRACE SLASH) with false. change (Byte.eqb LBRACE LBRACE) with true. cbn iota.
        assert (Hsb : ~ In SLASH b) by (intros H; apply Hs; right; exact H).
        destruct (in_dec byte_eq_dec RBRACE b) as [Hr|Hr].
        -- destruct (first_brace _ _ Hr) as (u & v & -> & Hu).
           destruct (in_dec byte_eq_dec LBRACE u) as [Hlu|Hlu].
           ++ right. right. destruct (first_brace _ _ Hlu) as (u1 & u2 & -> & Hu1). exists TBadName.
              split.
              ** rewrite <- !app_assoc. rewrite run_dynamic.
                 --- cbn [app tparse_loop]. reflexivity.
                 --- intros H. apply Hsb. apply in_or_app. left. apply in_or_app. left. exact H.
                 --- exact Hu1.
                 --- intros H. apply Hu. apply in_or_app. left. exact H.
              ** right. right. eexists. split; [reflexivity|]. apply in_or_app. left. apply in_or_app. right. left. reflexivity.
           ++ assert (Hsu : ~ In SLASH u) by (intros H; apply Hsb; apply in_or_app; left; exact H).
              rewrite run_dynamic by assumption. cbn [app tparse_loop]. change (Byte.eqb RBRACE RBRACE) with true. cbn iota.
              destruct v as [|x v].
              ** left. exists (SWild u). split; [reflexivity|]. split; [cbn; auto|]. split; [discriminate|]. reflexivity.
              ** right. right. exists TNotWhole. cbn [tparse_loop].
                 assert (x <> SLASH) by (intros ->; apply Hsb; apply in_or_app; right; right; left; reflexivity).
                 apply beq_neq in H. rewrite H. split; [reflexivity|]. left. right. exists u, (x :: v). split; [reflexivity|]. split; [exact Hu|discriminate].
        -- destruct (in_dec byte_eq_dec LBRACE b) as [Hlb|Hlb].
           ++ right. right. exists TBadName. destruct (first_brace _ _ Hlb) as (u1 & u2 & -> & Hu1). split.
              ** rewrite run_dynamic; [cbn [app tparse_loop]; reflexivity| |exact Hu1|].
                 --- intros H. apply Hsb. apply in_or_app. left. exact H.
                 --- intros H. apply Hr. apply in_or_app. left. exact H.
              ** right. right. eexists. split; [reflexivity|]. exact Hlb.
           ++ right. left. split; [|exists b; auto]. rewrite <- (app_nil_r b) at 1. rewrite run_dynamic by assumption. reflexivity.
    + right. right. exists TNotWhole. rewrite run_static2; [|exact Hst|discriminate| |exact Ha].
      * cbn [tparse_loop]. split; [reflexivity|]. left. left. exists (c :: a), b. split; [reflexivity|discriminate].
      * intros H. apply Hs. apply in_or_app. left. exact H.
  - left. exists (SStatic p). split; [reflexivity|]. split; [cbn; auto|]. split; [intros _; eexists; reflexivity|].
    rewrite <- (app_nil_r p) at 1. rewrite run_static2 by assumption. cbn [tparse_loop].
    destruct p as [|x [|y p]]; [contradiction| |]; cbn; rewrite ?app_nil_r; reflexivity.
Qed.

(* the segments without a final one of a single character *)
Definition drop_single (t : list seg) : list seg :=
  match rev t with SStatic [_] :: r => rev r | _ => t end.
Lemma drop_single_snoc : forall t s, drop_single (t ++ [s]) = t ++ match s with SStatic [_] => [] | _ => [s] end.
Proof.
  intros t s. unfold drop_single. rewrite rev_app_distr. cbn [rev app]. destruct s as [[|x [|y l]]|n]; try reflexivity.
  rewrite rev_involutive, app_nil_r. reflexivity.
Qed.
Lemma seg_text_ok : forall s, good_seg s -> seg_text s <> [] /\ ~ In SLASH (seg_text s).
Proof.
  intros [s|w]; cbn [good_seg seg_text]; [tauto|]. intros (H1 & H2 & H3). split; [discriminate|].
  intros [H|H]; [discriminate H|]. apply in_app_or in H. destruct H as [H|[H|[]]]; [contradiction|discriminate H].
Qed.
Lemma text_not_bad : forall s, good_seg s -> ~ BadText (seg_text s) /\ ~ Unclosed (seg_text s) /\
  (forall a, seg_text s = LBRACE :: a ++ [RBRACE] -> ~ In LBRACE a) /\ (forall a, seg_text s = LBRACE :: a -> ~ In LBRACE a).
Proof.
  intros [s|w] H; cbn [good_seg seg_text] in *.
  - destruct H as (H1 & H2 & H3). split; [|split; [|split]].
    + intros [(a & b & -> & _)|(a & b & -> & _)]; apply H3; [apply in_or_app; right; left; reflexivity|left; reflexivity].
    + intros (a & -> & _). apply H3. left. reflexivity.
    + intros a ->. exfalso. apply H3. left. reflexivity.
    + intros a ->. exfalso. apply H3. left. reflexivity.
  - destruct H as (H1 & H2 & H3). split; [|split; [|split]].
    + intros [(a & b & E & Ha)|(a & b & E & Ha & Hb)].
      * destruct a as [|x a]; [contradiction|]. injection E as _ E.
        assert (K : In LBRACE (w ++ [RBRACE])) by (rewrite E; apply in_or_app; right; left; reflexivity).
        apply in_app_or in K. destruct K as [K|[K|[]]]; [contradiction|discriminate K].
      * injection E as E. revert E. clear -H3 Ha Hb. revert w H3. induction a as [|x a IH]; intros [|y w] H3 E.
        -- injection E as E. congruence.
        -- injection E as -> _. apply H3. left. reflexivity.
        -- injection E as E1 E. subst x. apply Ha. left. reflexivity.
        -- injection E as _ E. apply (IH (fun H => Ha (or_intror H)) w (fun H => H3 (or_intror H)) E).
    + intros (a & E & Ha). injection E as <-. apply Ha. apply in_or_app. right. left. reflexivity.
    + intros a E. injection E as E. apply app_inj_tail in E. destruct E as [<- _]. exact H2.
    + intros a E. injection E as <-. intros K. apply in_app_or in K. destruct K as [K|[K|[]]]; [contradiction|discriminate K].
Qed.
Lemma seg_text_inj : forall s s', good_seg s -> good_seg s' -> seg_text s = seg_text s' -> s = s'.
Proof.
  intros [s|w] [s'|w'] H H' E; cbn [good_seg seg_text] in *.
  - congruence.
  - exfalso. destruct H as (_ & _ & H). apply H. rewrite E. left. reflexivity.
  - exfalso. destruct H' as (_ & _ & H'). apply H'. rewrite <- E. left. reflexivity.
  - injection E as E. apply app_inj_tail in E. destruct E as [-> _]. reflexivity.
Qed.
Lemma static_no_brace : forall s, good_seg s -> (exists x, s = SStatic x) -> ~ In LBRACE (seg_text s).
Proof. intros s H (x & ->). cbn in *. tauto. Qed.
Lemma seg_then : forall st s rest acc, st = TStatic \/ st = TSlash -> good_seg s -> (st = TStatic -> exists x, s = SStatic x) ->
  tparse_loop st [] (seg_text s ++ SLASH :: rest) acc = tparse_loop TSlash [] rest (acc ++ [s]).
Proof.
  intros st s rest acc Hst Hg Hst2. destruct (seg_text_ok s Hg) as [Hn Hs]. destruct (text_not_bad s Hg) as (B1 & B2 & B3 & B4).
  destruct (part_then st (seg_text s) rest acc Hst Hn Hs) as [(s' & E1 & E2 & _ & E3)|(e & _ & E)].
  - rewrite (seg_text_inj s s' Hg E2 (eq_sym E1)). rewrite (seg_text_inj s s' Hg E2 (eq_sym E1)) in E3. exact E3.
  - exfalso. destruct E as [E|[E|[[E1 E2]|(a & E & Ha)]]]; [auto|auto| |exact (B3 a E Ha)].
    exact (static_no_brace s Hg (Hst2 E1) E2).
Qed.
Lemma seg_last : forall st s acc, st = TStatic \/ st = TSlash -> good_seg s -> (st = TStatic -> exists x, s = SStatic x) ->
  tparse_loop st [] (seg_text s) acc = inr (acc ++ match s with SStatic [_] => [] | _ => [s] end).
Proof.
  intros st s acc Hst Hg Hst2. destruct (seg_text_ok s Hg) as [Hn Hs]. destruct (text_not_bad s Hg) as (B1 & B2 & B3 & B4).
  destruct (part_last st (seg_text s) acc Hst Hn Hs) as [(s' & E1 & E2 & _ & E3)|[[_ E]|(e & _ & E)]].
  - rewrite (seg_text_inj s s' Hg E2 (eq_sym E1)). rewrite (seg_text_inj s s' Hg E2 (eq_sym E1)) in E3. exact E3.
  - contradiction.
  - exfalso. destruct E as [E|[[E1 E2]|(a & E & Ha)]]; [auto| |exact (B4 a E Ha)].
    exact (static_no_brace s Hg (Hst2 E1) E2).
Qed.
Lemma join_cons2 : forall s s2 ss, join_slash (s :: s2 :: ss) = s ++ SLASH :: join_slash (s2 :: ss).
Proof. reflexivity. Qed.
(* well-formed templates are split into their segments; the last one is lost if it is a
   single character *)
Theorem template_accepted : forall t, Forall good_seg t -> (forall s t', t = s :: t' -> exists x, s = SStatic x) ->
  tparse (template_text t) = inr (drop_single t).
Proof.
  intros t Hg Hh. unfold template_text, tparse. rewrite beq_refl.
  assert (K : forall t st acc, t <> [] -> st = TStatic \/ st = TSlash -> Forall good_seg t -> (forall s t', st = TStatic -> t = s :: t' -> exists x, s = SStatic x) ->
    tparse_loop st [] (join_slash (map seg_text t)) acc = inr (acc ++ drop_single t)).
  { clear. induction t as [|s t IH]; intros st acc Hn Hst Hg Hh; [contradiction|]. inversion Hg as [|? ? G1 G2]; subst.
    destruct t as [|s2 t].
    - cbn [map join_slash]. rewrite (seg_last st s acc Hst G1 (fun H => Hh s [] H eq_refl)).
      change [s] with ([] ++ [s]). rewrite drop_single_snoc. reflexivity.
    - cbn [map]. rewrite join_cons2. rewrite (seg_then st s _ acc Hst G1 (fun H => Hh s _ H eq_refl)).
      change (seg_text s2 :: map seg_text t) with (map seg_text (s2 :: t)).
      rewrite IH; [|discriminate|right; reflexivity|exact G2|discriminate]. f_equal. rewrite <- app_assoc. f_equal.
      destruct (exists_last (l := s2 :: t)) as (t0 & s0 & ->); [discriminate|].
      change (s :: t0 ++ [s0]) with ((s :: t0) ++ [s0]). rewrite !drop_single_snoc. reflexivity. }
  destruct t as [|s t]; [reflexivity|]. rewrite (K (s :: t)); [reflexivity|discriminate|left; reflexivity|exact Hg|].
  intros s0 t' _. apply Hh.
Qed.
(* what is accepted is split into its parts; the last one is lost if it is a single character
   or an unclosed brace *)
Theorem template_split : forall ps p t, Forall (fun s => s <> [] /\ slash_free s) (ps ++ [p]) ->
  tparse (SLASH :: join_slash (ps ++ [p])) = inr t ->
  Forall good_seg t /\ (map seg_text t = ps ++ [p] \/ (map seg_text t = ps /\ (Unclosed p \/ List.length p = 1%nat))).
Proof.
  intros ps p t Hf H. unfold tparse in H. rewrite beq_refl in H.
  assert (K : forall ps st acc, st = TStatic \/ st = TSlash -> Forall (fun s => s <> [] /\ slash_free s) (ps ++ [p]) ->
     tparse_loop st [] (join_slash (ps ++ [p])) acc = inr t -> exists t', t = acc ++ t' /\ Forall good_seg t' /\
       (map seg_text t' = ps ++ [p] \/ (map seg_text t' = ps /\ (Unclosed p \/ List.length p = 1%nat)))).
  { clear. induction ps as [|s ps IH]; intros st acc Hst Hf H.
    - cbn [app join_slash] in *. inversion Hf as [|? ? [F1 F2] _]; subst.
      destruct (part_last st p acc Hst F1 F2) as [(s & E1 & E2 & _ & E3)|[[E1 E2]|(e & E & _)]].
      + rewrite E3 in H. injection H as <-.
        assert (G : map seg_text [s] = [] ++ [p]) by (cbn [map]; rewrite E1; reflexivity).
        assert (G2 : Forall good_seg [s]) by (constructor; [exact E2|constructor]).
        eexists. split; [reflexivity|]. destruct s as [[|x [|y l]]|w]; try (split; [exact G2|left; exact G]).
        split; [constructor|]. right. split; [reflexivity|]. right. rewrite <- E1. reflexivity.
      + rewrite E1 in H. injection H as <-. exists []. rewrite app_nil_r. split; [reflexivity|]. split; [constructor|]. right. split; [reflexivity|left; exact E2].
      + congruence.
    - cbn [app] in Hf, H. inversion Hf as [|? ? [F1 F2] F3]; subst.
      assert (E : join_slash (s :: ps ++ [p]) = s ++ SLASH :: join_slash (ps ++ [p])) by (destruct ps; reflexivity).
      rewrite E in H. destruct (part_then st s (join_slash (ps ++ [p])) acc Hst F1 F2) as [(s' & E1 & E2 & _ & E3)|(e & E1 & _)]; [|congruence].
      rewrite E3 in H. destruct (IH TSlash (acc ++ [s']) (or_intror eq_refl) F3 H) as (t' & T1 & T2 & T3).
      exists (s' :: t'). split; [rewrite T1, <- app_assoc; reflexivity|]. split; [constructor; assumption|].
      cbn [map app]. rewrite E1. destruct T3 as [T3|[T3 T4]]; rewrite T3; auto. }
  destruct (K ps TStatic [] (or_introl eq_refl) Hf H) as (t' & -> & K1 & K2). auto.
Qed.
(* a wildcard never comes first *)
Theorem wildcard_first_refused : forall p, exists e, tparse (SLASH :: LBRACE :: p) = inl e.
Proof. intros p. exists TNotWhole. reflexivity. Qed.
Theorem no_leading_slash_refused : forall p, ~ (exists p', p = SLASH :: p') -> exists e, tparse p = inl e.
Proof.
  intros [|c p] H; [exists TEmpty; reflexivity|]. unfold tparse. destruct (Byte.eqb c SLASH) eqn:E; [|eexists; reflexivity].
  apply beq_eq in E. subst. exfalso. apply H. exists p. reflexivity.
Qed.
Theorem bad_segment_refused : forall ps p t, Forall (fun s => s <> [] /\ slash_free s) (ps ++ [p]) ->
  Exists BadText (ps ++ [p]) -> List.length p <> 1%nat -> ~ Unclosed p -> tparse (SLASH :: join_slash (ps ++ [p])) <> inr t.
Proof.
  intros ps p t Hf HE Hl Hu H. destruct (template_split ps p t Hf H) as [Hg [E|[_ [U|L]]]]; [|contradiction|contradiction].
  rewrite <- E in HE. apply Exists_exists in HE. destruct HE as (s & Hi & Hb). apply in_map_iff in Hi. destruct Hi as (g & <- & Hi).
  rewrite Forall_forall in Hg. destruct (text_not_bad g (Hg g Hi)) as (HB & _). contradiction.
Qed.
