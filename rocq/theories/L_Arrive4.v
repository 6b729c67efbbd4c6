(* Header lines in any reads are heard as one stream. *)
From Verif Require Import M_Base L_Base M_Status M_Method M_Proto M_Uri M_KeyValue M_Query M_Request
  M_Parser S_Parser S_Head S_Split S_Verdict S_Arrive L_Parser L_Head L_Uri L_Loose L_Tables L_Safe L_Split L_Refuse L_Verdict L_Arrive L_Arrive2 L_Arrive3.
Local Arguments cut : simpl never.
Local Arguments cut_last : simpl never.
Local Open Scope Z_scope.

Definition same_as (res : pres * list bytes) (r : pres) : Prop :=
  match r with
  | RPending _ => exists p, res = (RPending p, [])
  | RDone p e => exists p' e', fst res = RDone p' e' /\ p_req p' = p_req p /\ e' ++ concat (snd res) = e
  | RErr p e => exists p', fst res = RErr p' e /\ p_req p' = p_req p
  | RPanic => fst res = RPanic
  | RStuck => False
  end.
(* reads that begin at a label *)
Definition feed_at (cfg : hcfg) (l : pstate) (p : parser) (reads : list bytes) : pres * list bytes :=
  match reads with
  | [] => (RPending p, [])
  | d :: rest => match run cfg (S (List.length d)) l p d with RPending p' => feed cfg p' rest | r => (r, rest) end
  end.
Lemma feed_begin : forall cfg p reads, feed cfg p reads = feed_at cfg (p_state p) p reads.
Proof. intros cfg p [|d reads]; reflexivity. Qed.
Lemma near_trans : forall p q r, near p q -> near q r -> near p r.
Proof. intros [s [d g m] k v hk hn cl r] q z (s1 & d1 & ->) (s2 & d2 & ->). exists s2, d2. reflexivity. Qed.
Lemma run_fuel : forall cfg f f' l p d, (List.length d < f)%nat -> (List.length d < f')%nat -> run cfg f l p d = run cfg f' l p d.
Proof.
  intros cfg. induction f as [|f IH]; intros f' l p d Hf Hf'; [lia|]. destruct f' as [|f']; [lia|]. cbn [run].
  destruct (step cfg l p d) as [l1 p1 d1|r] eqn:E; [|reflexivity]. pose proof (step_shrinks _ _ _ _ _ _ _ E). apply IH; lia.
Qed.
Lemma key_in_lines : in_lines eHeaderKey.
Proof. split; discriminate. Qed.

(* the break of the empty line, and then *)
Definition after_cr (q : parser) (t : bytes) : pres :=
  match t with [] => RPending q | c :: r => if Byte.eqb c LF then RDone (cleanup q) r else RErr q ErrBadRequest end.
Lemma crlf_feed : forall cfg reads q, p_state q = eHeaderValueCRLFCR -> same_as (feed cfg q reads) (after_cr q (concat reads)).
Proof.
  intros cfg. induction reads as [|d reads IH]; intros q Hq; [exists q; reflexivity|]. cbn [feed concat]. unfold parse. rewrite Hq. cbn [run step]. unfold step_crlfcr.
  destruct d as [|c d]; cbn [app].
  - assert (X : set_p_state eHeaderValueCRLFCR q = q) by (clear - Hq; destruct q as [s b k v hk hn cl r]; cbn in Hq; subst s; reflexivity). rewrite X. exact (IH q Hq).
  - cbn [after_cr]. destruct (Byte.eqb c LF).
    + eexists _, d. split; [reflexivity|]. split; reflexivity.
    + eexists. split; reflexivity.
Qed.

Lemma pstate_eq_dec : forall a b : pstate, {a = b} + {a <> b}.
Proof. decide equality. Qed.

Section Heard.
Variable cfg : hcfg.
Variables umax kmax vmax : Z.
Notation lim := (cfg_limits cfg umax kmax vmax).
Variable r1 : request.
Notation AInv := (AInv cfg kmax vmax r1).

Lemma more_pending : forall p0 a f, AInv p0 [] -> (List.length a < f)%nat -> LinesTell lim [] a LMore -> exists q, run cfg f eHeaderKey p0 a = RPending q.
Proof. intros p0 a f I Hf H. exact (lines_follow cfg umax kmax vmax r1 _ _ _ H p0 f I Hf). Qed.
Lemma pending_more : forall p0 a f q, AInv p0 [] -> (List.length a < f)%nat -> run cfg f eHeaderKey p0 a = RPending q -> LinesTell lim [] a LMore.
Proof.
  intros p0 a f q I Hf R. destruct (lines_all lim (List.length a) a ltac:(lia) []) as (v & V).
  pose proof (lines_follow cfg umax kmax vmax r1 _ _ _ V p0 f I Hf) as O. rewrite R in O. destruct v as [|ls rest|e|]; cbn [AObeys] in O; [exact V| | |discriminate O].
  - destruct O as (p & O & _). discriminate O.
  - destruct O as (p & O & _). discriminate O.
Qed.
Definition ended (r : pres) : Prop := match r with RPending _ => False | _ => True end.
Lemma ended_more : forall p0 a d f f', (List.length a < f)%nat -> (List.length (a ++ d) < f')%nat -> ended (run cfg f eHeaderKey p0 a) -> ended (run cfg f' eHeaderKey p0 (a ++ d)).
Proof.
  intros p0 a d f f' Hf Hf' E. pose proof (split_lines cfg d f f' eHeaderKey p0 a key_in_lines Hf Hf') as S0. destruct (run cfg f eHeaderKey p0 a); cbn [ended rnext] in *; try contradiction.
  - rewrite S0. exact I.
  - destruct S0 as (q & -> & _). exact I.
  - rewrite S0. exact I.
Qed.
Lemma heard_ended : forall a reads t, LinesHeard lim a reads t -> forall p0 f, AInv p0 [] -> (List.length a < f)%nat -> ended (run cfg f eHeaderKey p0 a) -> t = a ++ concat reads.
Proof.
  intros a reads t H. induction H as [a|a b n d reads F|a d reads t F H IH]; intros p0 f I Hf E.
  - symmetry. apply app_nil_r.
  - exfalso. destruct F as (_ & _ & M & _). destruct (more_pending p0 a f I Hf M) as (q & R). rewrite R in E. exact E.
  - cbn [concat]. rewrite app_assoc. apply (IH p0 (S (List.length (a ++ d)))); [exact I|lia|]. exact (ended_more p0 a d f (S (List.length (a ++ d))) Hf (Nat.lt_succ_diag_r _) E).
Qed.
Lemma same_ended : forall p0 a rest t f f' x, (List.length a < f)%nat -> (List.length t < f')%nat -> t = a ++ concat rest -> rsim (run cfg f eHeaderKey p0 a) x -> ended x ->
  same_as (x, rest) (run cfg f' eHeaderKey p0 t).
Proof.
  intros p0 a rest t f f' x Hf Hf' -> S0 E. pose proof (split_lines cfg (concat rest) f f' eHeaderKey p0 a key_in_lines Hf Hf') as S1.
  destruct (run cfg f eHeaderKey p0 a) as [p|p e|p e| |], x as [q|q e'|q e'| |]; cbn [ended rsim rnext] in *; try contradiction.
  - destruct S0 as [-> ->]. rewrite S1. exists q, e'. cbn [fst snd]. split; [reflexivity|]. split; reflexivity.
  - destruct S0 as [-> S0]. destruct S1 as (w & -> & S1). exists q. split; [reflexivity|]. congruence.
  - rewrite S1. reflexivity.
Qed.
Lemma heard : forall a reads t, LinesHeard lim a reads t -> forall p0 q0 q f f', AInv p0 [] -> (List.length a < f)%nat -> run cfg f eHeaderKey p0 a = RPending q0 ->
  near q0 q -> (List.length t < f')%nat -> same_as (feed_at cfg (p_state q0) q reads) (run cfg f' eHeaderKey p0 t).
Proof.
  intros a reads t H. induction H as [a|a b n d reads F|a d reads t F H IH]; intros p0 q0 q f f' I Hf R N Hf'.
  - rewrite (run_fuel cfg f' f) by assumption. rewrite R. exists q. reflexivity.
  - destruct F as (-> & Nb & _ & c & d' & -> & Hc). destruct (begun_run cfg b n Nb p0 q0 f Hf R) as (S0 & K0 & p1 & Q & T).
    destruct (T ((c :: d') ++ concat reads) f' Hf') as (f1 & Hf1 & E). rewrite E.
    assert (Qr : p_req q = p_req p1) by (rewrite Q; symmetry; apply near_same; exact N).
    cbn [feed_at]. rewrite S0. cbn [app]. destruct f1 as [|f1]; [lia|]. cbn [run step]. unfold step_header_key. cbn [app] in *. destruct Hc as [->| ->].
    + change (Byte.eqb CR LF) with false. rewrite beq_refl. cbv iota. cbn [List.length run step]. unfold step_crlfcr. destruct d' as [|c1 d'].
      * cbn [app] in *. destruct f1 as [|f1]; [cbn [List.length] in Hf1; lia|]. cbn [run step]. pose proof (crlf_feed cfg reads (set_p_state eHeaderValueCRLFCR q) eq_refl) as C.
        unfold step_crlfcr. destruct (concat reads) as [|c1 r] eqn:Er; cbn [after_cr] in C; [exact C|]. destruct (Byte.eqb c1 LF); cbn [same_as] in *.
        -- destruct C as (p' & e' & C1 & C2 & C3). exists p', e'. split; [exact C1|]. split; [rewrite C2; exact Qr|exact C3].
        -- destruct C as (p' & C1 & C2). exists p'. split; [exact C1|]. rewrite C2. exact Qr.
      * cbn [app] in *. destruct f1 as [|f1]; [cbn [List.length] in Hf1; lia|]. cbn [run step]. unfold step_crlfcr. destruct (Byte.eqb c1 LF); cbn [same_as fst snd].
        -- eexists _, d'. split; [reflexivity|]. split; [exact Qr|reflexivity].
        -- eexists. split; [reflexivity|exact Qr].
    + rewrite beq_refl. cbn [same_as fst snd]. eexists _, d'. split; [reflexivity|]. split; [exact Qr|reflexivity].
  - assert (GO : goes_on q0 d).
    { intros X Y c d' -> Hc. destruct (run_begun cfg (List.length a) a ltac:(lia) p0 q0 f) as (b & n & E & Nb); try assumption.
      - destruct (ai_key _ _ _ _ _ _ I) as (kd & -> & _). reflexivity.
      - apply (F b n). split; [exact E|]. split; [exact Nb|]. split; [exact (pending_more _ _ _ _ I Hf R)|]. exists c, d'. split; [reflexivity|exact Hc]. }
    set (g := S (List.length (a ++ d))). pose proof (split_lines cfg d f g eHeaderKey p0 a key_in_lines Hf ltac:(unfold g; lia)) as S1. rewrite R in S1. cbn [rnext] in S1. destruct S1 as [IL S1]. specialize (S1 GO).
    assert (S2 : rsim (parse cfg q0 d) (run cfg (S (List.length d)) (p_state q0) q d)) by (unfold parse; apply near_lines; [exact N|exact IL|lia|lia]).
    cbn [feed_at]. set (y := run cfg (S (List.length d)) (p_state q0) q d) in *.
    assert (S3 : rsim (run cfg g eHeaderKey p0 (a ++ d)) y).
    { destruct (run cfg g eHeaderKey p0 (a ++ d)), (parse cfg q0 d), y; cbn [rsim] in *; try contradiction; try exact Logic.I.
      - destruct S1, S2. split; [eapply near_trans; eassumption|congruence].
      - destruct S1, S2. split; congruence.
      - destruct S1, S2. split; congruence. }
    clearbody y. destruct y as [q'|q' e'|q' e'| |].
    + destruct (run cfg g eHeaderKey p0 (a ++ d)) as [w|?|?| |] eqn:Ew; cbn [rsim] in S3; try contradiction. destruct S3 as [N3 Q3]. rewrite feed_begin, <- Q3. apply (IH p0 w q' g f'); try assumption. unfold g. lia.
    + apply (same_ended p0 (a ++ d) reads t g f'); [unfold g; lia|exact Hf'| |exact S3|exact Logic.I]. apply (heard_ended _ _ _ H p0 g I); [unfold g; lia|]. destruct (run cfg g eHeaderKey p0 (a ++ d)); try contradiction; exact Logic.I.
    + apply (same_ended p0 (a ++ d) reads t g f'); [unfold g; lia|exact Hf'| |exact S3|exact Logic.I]. apply (heard_ended _ _ _ H p0 g I); [unfold g; lia|]. destruct (run cfg g eHeaderKey p0 (a ++ d)); try contradiction; exact Logic.I.
    + apply (same_ended p0 (a ++ d) reads t g f'); [unfold g; lia|exact Hf'| |exact S3|exact Logic.I]. apply (heard_ended _ _ _ H p0 g I); [unfold g; lia|]. destruct (run cfg g eHeaderKey p0 (a ++ d)); try contradiction; exact Logic.I.
    + destruct (run cfg g eHeaderKey p0 (a ++ d)); contradiction.
Qed.
(* every reads are heard as some stream *)
Lemma heard_total : forall reads a p0, AInv p0 [] -> exists t, LinesHeard lim a reads t.
Proof.
  induction reads as [|d reads IH]; intros a p0 I; [exists a; constructor|].
  set (f := S (List.length a)). assert (Hf : (List.length a < f)%nat) by (unfold f; lia).
  assert (K : (exists b n, forgets lim a b n d) \/ forall b n, ~ forgets lim a b n d).
  { destruct (run cfg f eHeaderKey p0 a) as [q|q e|q e| |] eqn:R;
      try (right; intros b n (_ & _ & M & _); destruct (more_pending p0 a f I Hf M) as (q' & R'); rewrite R in R'; discriminate R').
    destruct (pstate_eq_dec (p_state q) eHeaderKey) as [Sq|Sq].
    2:{ right. intros b n (-> & Nb & _). apply Sq. exact (proj1 (begun_run cfg b n Nb p0 q f Hf R)). }
    destruct (b_seg (p_key q)) as [|x g] eqn:Kq.
    { right. intros b n (-> & Nb & _). exact (proj1 (proj2 (begun_run cfg b n Nb p0 q f Hf R)) Kq). }
    destruct d as [|c d']; [right; intros b n (_ & _ & _ & c & d' & X & _); discriminate X|].
    assert (D : a_break c \/ ~ a_break c).
    { unfold a_break. destruct (Byte.eqb c CR) eqn:E1; [apply beq_eq in E1; auto|]. destruct (Byte.eqb c LF) eqn:E2; [apply beq_eq in E2; auto|].
      right. intros [->| ->]; rewrite beq_refl in *; discriminate. }
    destruct D as [D|D]; [|right; intros b n (_ & _ & _ & c' & d2 & X & Y); injection X as <- _; contradiction].
    left. destruct (run_begun cfg (List.length a) a ltac:(lia) p0 q f) as (b & n & E & Nb); try assumption.
    - destruct (ai_key _ _ _ _ _ _ I) as (kd & -> & _). reflexivity.
    - rewrite Kq. discriminate.
    - exists b, n. split; [exact E|]. split; [exact Nb|]. split; [exact (pending_more _ _ _ _ I Hf R)|]. exists c, d'. split; [reflexivity|exact D]. }
  destruct K as [(b & n & K)|K]; [eexists; exact (Lh_forget lim a b n d reads K)|]. destruct (IH (a ++ d) p0 I) as (t & T). exists t. constructor; assumption.
Qed.
End Heard.
