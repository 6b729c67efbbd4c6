(* The reference chunk decoder meets the contract. *)
From Verif Require Import M_Base M_Body S_Head S_Body S_Chunk L_Base.

Lemma kaccepts_parse : forall data s w d acc more tail, kaccepts s w d -> data ++ more = w ++ tail ->
  exists s' chunk extra e, kparse s data acc = (s', (acc ++ chunk, extra, e)) /\
   ((e = None /\ extra = [] /\ exists w' d', w = data ++ w' /\ w' <> [] /\ d = chunk ++ d' /\ kaccepts s' w' d') \/
    (e = Some CEof /\ data = w ++ extra /\ d = chunk /\ kfresh s')).
Proof.
  induction data as [|c data IH]; intros s w d acc more tail Ha Heq.
  - exists s, [], [], None. rewrite app_nil_r. split; [reflexivity|]. left. repeat split; auto.
    exists w, d. split; [reflexivity|]. split; [intros ->; exact Ha|]. auto.
  - destruct w as [|c' w]; [contradiction|]. cbn in Heq. inversion Heq; subst c'. cbn in Ha. cbn [kparse].
    destruct (kstep s c) as [s1 out| |] eqn:Es; [| |contradiction].
    + destruct Ha as (d1 & -> & Ha). destruct (IH s1 w d1 (acc ++ out) more tail Ha H1) as (s' & ch & ex & e & Hp & Hc).
      exists s', (out ++ ch), ex, e. rewrite Hp, <- app_assoc. split; [reflexivity|].
      destruct Hc as [(-> & -> & w' & d' & -> & Hw & -> & Hk) | (-> & -> & -> & Hf)].
      * left. split; [reflexivity|]. split; [reflexivity|]. exists w', d'. rewrite app_assoc. auto.
      * right. auto.
    + destruct Ha as [-> ->]. exists (KSize 0 false), [], data, (Some CEof). rewrite app_nil_r.
      split; [reflexivity|]. right. repeat split; auto.
Qed.

Lemma hex_fold_some : forall h a n, fold_left (fun a c => match a, hex_value c with Some n, Some v => Some (16 * n + v)%N | _, _ => None end) h a = Some n ->
  exists m, a = Some m.
Proof.
  induction h as [|c h IH]; intros a n H; cbn in H; [eauto|].
  apply IH in H as [m H]. destruct a; [eauto|discriminate].
Qed.
Lemma kaccepts_size : forall h n m rest d seen, hex_number h = Some m \/ True ->
  fold_left (fun a c => match a, hex_value c with Some n, Some v => Some (16 * n + v)%N | _, _ => None end) h (Some n) = Some m ->
  (seen = true \/ h <> []) -> kaccepts (KSizeLF m) rest d ->
  kaccepts (KSize n seen) (h ++ CR :: rest) d.
Proof.
  induction h as [|c h IH]; intros n m rest d seen _ Hf Hs Ha.
  - cbn in Hf. inversion Hf; subst. destruct Hs as [->|Hs]; [|congruence]. cbn. exists d. auto.
  - cbn in Hf. destruct (hex_value c) as [v|] eqn:Ev.
    2:{ apply hex_fold_some in Hf as [? Hf]. discriminate. }
    cbn [app kaccepts kstep]. assert (Hc : Byte.eqb c CR = false).
    { destruct (Byte.eqb c CR) eqn:E; [|reflexivity]. apply beq_eq in E. subst c. discriminate. }
    rewrite Hc, Ev. exists d. split; [reflexivity|]. eapply IH; eauto.
Qed.
Lemma kaccepts_data : forall x rest d, x <> [] -> kaccepts KDataCR rest d ->
  kaccepts (KData (N.of_nat (List.length x))) (x ++ rest) (x ++ d).
Proof.
  induction x as [|c x IH]; intros rest d Hx Ha; [congruence|].
  cbn [app kaccepts kstep List.length]. destruct x as [|c2 x].
  - cbn. exists d. auto.
  - replace (N.of_nat (S (List.length (c2 :: x))) =? 1)%N with false by (symmetry; apply N.eqb_neq; cbn [List.length]; lia).
    exists ((c2 :: x) ++ d). split; [reflexivity|].
    replace (N.of_nat (S (List.length (c2 :: x))) - 1)%N with (N.of_nat (List.length (c2 :: x))) by lia.
    apply IH; [discriminate|assumption].
Qed.

Lemma chunked_accepts : forall w d, Chunked w d -> kaccepts (KSize 0 false) w d.
Proof.
  induction 1 as [h Hh Hv | h d w t Hh Hd Hv Hw IH].
  - apply (kaccepts_size h 0%N 0%N (LF :: CRLF) [] false); auto.
    cbn. exists []. split; [reflexivity|]. exists []. auto.
  - apply (kaccepts_size h 0%N _ (LF :: d ++ CRLF ++ w) (d ++ t) false (or_intror I) Hv); auto.
    cbn [kaccepts kstep]. replace (Byte.eqb LF LF) with true by reflexivity.
    replace (N.of_nat (List.length d) =? 0)%N with false by (symmetry; apply N.eqb_neq; destruct d; [congruence|cbn; lia]).
    exists (d ++ t). split; [reflexivity|]. apply kaccepts_data; [assumption|].
    cbn. exists t. split; [reflexivity|]. exists t. auto.
Qed.

Lemma ref_decoder_ok : DecoderOk kstate ref_parse chunked_text kfresh (fun s _ w d => kaccepts s w d).
Proof.
  constructor.
  - intros s tr w d -> H. apply chunked_accepts. assumption.
  - intros tr w d H. unfold chunked_text in H. inversion H; subst; destruct h; discriminate || congruence.
  - intros s tr w d data more tail Ha Heq.
    destruct (kaccepts_parse data s w d [] more tail Ha Heq) as (s' & ch & ex & e & Hp & Hc).
    exists s', ch, ex, e. split; [exact Hp|]. destruct Hc as [(-> & -> & w' & d' & -> & Hw & -> & Hk) | Hc]; [left|right; assumption].
    split; [reflexivity|]. exists data, w', d'. rewrite app_nil_r. repeat split; auto.
    destruct data; [auto|left; discriminate].
Qed.
