(* The request head parser on arbitrary bytes: termination, panics, memory bounds. *)
From Verif Require Import M_Base L_Base M_Status M_Method M_Proto M_Uri M_KeyValue M_Query M_Request
  M_Parser S_Head S_Parser S_Limits L_Uri L_Parser L_Head.

Local Arguments cut : simpl never.
Local Arguments cut_last : simpl never.
Local Arguments clen_loop : simpl never.

(* ---- every jump consumes at least one byte ---- *)
Lemma clen_loop_some : forall d n n' d', clen_loop n d = (n', Some d') ->
  (List.length d' <= List.length d)%nat /\ d' <> [].
Proof.
  induction d as [|c d IH]; intros n n' d' H; unfold clen_loop in H; fold clen_loop in H; [discriminate|].
  destruct (Byte.eqb c SP).
  - apply IH in H. simpl. split; [lia|tauto].
  - destruct (is_digit c).
    + apply IH in H. simpl. split; [lia|tauto].
    + injection H as _ <-. split; [lia|discriminate].
Qed.

Lemma step_shrinks : forall cfg l p d l' p' d', step cfg l p d = Goto l' p' d' ->
  (List.length d' < List.length d)%nat.
Proof.
  intros cfg l p d l' p' d' H. destruct l; simpl in H.
  - unfold step_method in H. destruct (cut d SP) as [[m rest]|] eqn:Ec.
    + apply cut_shorter in Ec.
      assert (Hc : forall p0 mv, match mv with
           | [] => Ret (RErr p0 ErrBadRequest)
           | _ :: _ => match method_parse mv with
               | MUnknown => Ret (RErr (set_p_req (set_method (method_parse mv) (p_req p0)) p0) ErrMethodNotImplemented)
               | _ => Goto ePath (set_p_req (set_method (method_parse mv) (p_req p0)) p0) rest
               end end = Goto l' p' d' -> d' = rest).
      { intros p0 mv Hh. destruct mv as [|x mv]; [discriminate|].
        destruct (method_parse (x :: mv)); try discriminate; injection Hh; intros; subst; reflexivity. }
      destruct (buf_seglen (p_start p) =? 0)%Z.
      * apply Hc in H. subst. exact Ec.
      * destruct (buf_append (p_start p) m) as [b|]; [|discriminate].
        unfold buf_finish in H. apply Hc in H. subst. exact Ec.
    + destruct (buf_append (p_start p) d); discriminate.
  - unfold step_path in H. destruct (cut d LF) as [[m rest]|] eqn:Ec.
    + apply cut_shorter in Ec. destruct (buf_append (p_start p) m) as [b|]; [|discriminate].
      unfold buf_finish in H.
      destruct (request_line (set_p_start (Buffer (b_done b ++ b_seg b) [] (b_max b)) p) (b_seg b)); [discriminate|].
      injection H as _ _ <-. exact Ec.
    + destruct (buf_append (p_start p) d); discriminate.
  - unfold step_header_key in H. destruct d as [|c d]; [discriminate|].
    destruct (Byte.eqb c LF); [discriminate|]. destruct (Byte.eqb c CR).
    { injection H as _ _ <-. simpl. lia. }
    destruct (cut (c :: d) x3a) as [[k rest]|] eqn:Ec.
    + apply cut_shorter in Ec. destruct (buf_append (p_key p) k) as [b|]; [|discriminate].
      unfold buf_finish in H. cbn zeta in H.
      match type of H with context [if ?b then _ else _] => destruct b; [discriminate|] end.
      match type of H with context [if ?b then _ else _] => destruct b end;
        injection H as _ _ <-; exact Ec.
    + destruct (buf_append (p_key p) (c :: d)); discriminate.
  - unfold step_content_length in H. destruct (clen_loop (p_clen p) d) as [n [d2|]] eqn:Ec; [|discriminate].
    apply clen_loop_some in Ec. destruct Ec as [Hle Hne]. destruct d2 as [|c d2]; [contradiction|].
    simpl in Hle. destruct (Byte.eqb c CR); [injection H as _ _ <-; lia|].
    destruct (Byte.eqb c LF); [injection H as _ _ <-; lia|discriminate].
  - unfold step_content_length_cr in H. destruct d as [|c d]; [discriminate|].
    destruct (Byte.eqb c LF); [injection H as _ _ <-; simpl; lia|discriminate].
  - unfold step_header_value in H. destruct (cut d LF) as [[v rest]|] eqn:Ec.
    + apply cut_shorter in Ec. destruct (buf_append (p_val p) v) as [b|]; [|discriminate].
      destruct (buf_seglen b >? c_max_value cfg)%Z; [discriminate|].
      unfold buf_finish in H. cbn zeta in H.
      destruct (last_byte (trim_prefix_spaces (b_seg b))); [|discriminate].
      injection H as _ _ <-. exact Ec.
    + destruct (buf_append (p_val p) d) as [b|]; [|discriminate].
      destruct (buf_seglen b >? c_max_value cfg)%Z; discriminate.
  - unfold step_crlfcr in H. destruct d as [|c d]; [discriminate|].
    destruct (Byte.eqb c LF); discriminate.
Qed.

Lemma step_not_stuck : forall cfg l p d, step cfg l p d <> Ret RStuck.
Proof.
  intros cfg l p d H. destruct l; simpl in H.
  - unfold step_method in H. destruct (cut d SP) as [[m rest]|] eqn:Ec.
    + assert (Hc : forall p0 mv, match mv with
           | [] => Ret (RErr p0 ErrBadRequest)
           | _ :: _ => match method_parse mv with
               | MUnknown => Ret (RErr (set_p_req (set_method (method_parse mv) (p_req p0)) p0) ErrMethodNotImplemented)
               | _ => Goto ePath (set_p_req (set_method (method_parse mv) (p_req p0)) p0) rest
               end end <> Ret RStuck).
      { intros p0 mv Hh. destruct mv as [|x mv]; [discriminate|].
        destruct (method_parse (x :: mv)); discriminate. }
      destruct (buf_seglen (p_start p) =? 0)%Z.
      * apply Hc in H. exact H.
      * destruct (buf_append (p_start p) m) as [b|]; [|discriminate].
        unfold buf_finish in H. apply Hc in H. exact H.
    + destruct (buf_append (p_start p) d); discriminate.
  - unfold step_path in H. destruct (cut d LF) as [[m rest]|] eqn:Ec.
    + destruct (buf_append (p_start p) m) as [b|]; [|discriminate].
      unfold buf_finish in H.
      destruct (request_line (set_p_start (Buffer (b_done b ++ b_seg b) [] (b_max b)) p) (b_seg b)) eqn:Er;
        [|discriminate].
      injection H as ->. unfold request_line in Er.
      destruct (cut_last (b_seg b) SP) as [[rp rt]|]; [|discriminate].
      destruct (last_byte rt); [|discriminate].
      destruct (cut rp x3f) as [[pa q]|].
      * destruct pa; [discriminate|]. destruct (uri_decode _); [|discriminate].
        destruct (proto_from_bytes _); discriminate.
      * destruct rp; [discriminate|]. destruct (uri_decode _); [|discriminate].
        destruct (proto_from_bytes _); discriminate.
    + destruct (buf_append (p_start p) d); discriminate.
  - unfold step_header_key in H. destruct d as [|c d]; [discriminate|].
    destruct (Byte.eqb c LF); [discriminate|]. destruct (Byte.eqb c CR); [discriminate|].
    destruct (cut (c :: d) x3a) as [[k rest]|] eqn:Ec.
    + destruct (buf_append (p_key p) k) as [b|]; [|discriminate].
      unfold buf_finish in H. cbn zeta in H.
      match type of H with context [if ?b then _ else _] => destruct b; [discriminate|] end.
      match type of H with context [if ?b then _ else _] => destruct b; discriminate end.
    + destruct (buf_append (p_key p) (c :: d)); discriminate.
  - unfold step_content_length in H. destruct (clen_loop (p_clen p) d) as [n [d2|]] eqn:Ec; [|discriminate].
    destruct d2 as [|c d2]; [discriminate|].
    destruct (Byte.eqb c CR); [discriminate|]. destruct (Byte.eqb c LF); discriminate.
  - unfold step_content_length_cr in H. destruct d as [|c d]; [discriminate|].
    destruct (Byte.eqb c LF); discriminate.
  - unfold step_header_value in H. destruct (cut d LF) as [[v rest]|] eqn:Ec.
    + destruct (buf_append (p_val p) v) as [b|]; [|discriminate].
      destruct (buf_seglen b >? c_max_value cfg)%Z; [discriminate|].
      unfold buf_finish in H. cbn zeta in H.
      destruct (last_byte (trim_prefix_spaces (b_seg b))); discriminate.
    + destruct (buf_append (p_val p) d) as [b|]; [|discriminate].
      destruct (buf_seglen b >? c_max_value cfg)%Z; discriminate.
  - unfold step_crlfcr in H. destruct d as [|c d]; [discriminate|].
    destruct (Byte.eqb c LF); discriminate.
Qed.

Lemma run_not_stuck : forall cfg fuel l p d, (List.length d < fuel)%nat -> run cfg fuel l p d <> RStuck.
Proof.
  intros cfg. induction fuel as [|f IH]; intros l p d Hf; [lia|]. simpl.
  destruct (step cfg l p d) as [l' p' d'|r] eqn:E.
  - apply step_shrinks in E. apply IH. lia.
  - intros ->. apply (step_not_stuck _ _ _ _ E).
Qed.

Lemma parse_not_stuck : forall cfg p d, parse cfg p d <> RStuck.
Proof. intros. apply run_not_stuck. lia. Qed.

Lemma feed_not_stuck : forall cfg reads p, fst (feed cfg p reads) <> RStuck.
Proof.
  intros cfg. induction reads as [|d reads IH]; intros p; simpl; [discriminate|].
  pose proof (parse_not_stuck cfg p d) as H.
  destruct (parse cfg p d); simpl; try discriminate; [apply IH|]. contradiction.
Qed.

(* ---- a general induction principle: an invariant of the steps is one of the whole feed ---- *)
Section Invariant.
Variable cfg : hcfg.
Variable Inv : pstate -> parser -> Prop.
Variable Post : pres -> Prop.
Hypothesis inv_goto : forall l p d l' p' d', Inv l p -> step cfg l p d = Goto l' p' d' -> Inv l' p'.
Hypothesis inv_pend : forall l p d p', Inv l p -> step cfg l p d = Ret (RPending p') ->
  Inv (p_state p') p'.
Hypothesis inv_post : forall l p d r, Inv l p -> step cfg l p d = Ret r -> Post r.
Hypothesis inv_post0 : forall p, Inv (p_state p) p -> Post (RPending p).

Lemma run_inv : forall fuel l p d, (List.length d < fuel)%nat -> Inv l p ->
  Post (run cfg fuel l p d) /\ (forall p', run cfg fuel l p d = RPending p' -> Inv (p_state p') p').
Proof.
  induction fuel as [|f IH]; intros l p d Hf Hi; [lia|]. simpl.
  destruct (step cfg l p d) as [l' p' d'|r] eqn:E.
  - pose proof (step_shrinks _ _ _ _ _ _ _ E). apply IH; [lia|]. eapply inv_goto; eassumption.
  - split; [eapply inv_post; eassumption|]. intros p' ->. eapply inv_pend; eassumption.
Qed.

Lemma feed_inv : forall reads p, Inv (p_state p) p -> Post (fst (feed cfg p reads)).
Proof.
  induction reads as [|d reads IH]; intros p Hi; simpl; [apply inv_post0; exact Hi|].
  unfold parse. destruct (run_inv (S (List.length d)) (p_state p) p d (Nat.lt_succ_diag_r _) Hi) as [H1 H2].
  destruct (run cfg (S (List.length d)) (p_state p) p d) eqn:E; simpl; try exact H1.
  apply IH. apply H2. reflexivity.
Qed.
End Invariant.

(* ---- panics ---- *)
(* [lf_ok prev d]: no LF of d is directly preceded by a space or a colon; [prev] is the byte
   before d *)
Definition bad_before_lf (c : byte) : bool := Byte.eqb c SP || Byte.eqb c x3a.
Fixpoint lf_ok (prev : byte) (d : bytes) : bool :=
  match d with
  | [] => true
  | c :: d' => negb (Byte.eqb c LF && bad_before_lf prev) && lf_ok c d'
  end.
Definition last_or (prev : byte) (d : bytes) : byte :=
  match last_byte d with Some c => c | None => prev end.

Lemma last_or_app : forall a b prev, last_or prev (a ++ b) = last_or (last_or prev a) b.
Proof.
  intros a b prev. destruct (snoc_case _ b) as [->|(b' & c & ->)].
  - rewrite app_nil_r. reflexivity.
  - unfold last_or. rewrite app_assoc, !last_byte_snoc. reflexivity.
Qed.

Lemma last_or_cons : forall c d prev, last_or prev (c :: d) = last_or c d.
Proof. intros c d prev. apply (last_or_app [c] d prev). Qed.

Lemma lf_ok_app : forall a b prev, lf_ok prev (a ++ b) = lf_ok prev a && lf_ok (last_or prev a) b.
Proof.
  induction a as [|c a IH]; intros b prev; [reflexivity|].
  cbn [app lf_ok]. rewrite IH, last_or_cons, andb_assoc. reflexivity.
Qed.

Lemma lf_ok_at : forall a prev b, lf_ok prev (a ++ LF :: b) = true -> bad_before_lf (last_or prev a) = false.
Proof.
  intros a prev b H. rewrite lf_ok_app in H. apply andb_true_iff in H. destruct H as [_ H].
  cbn [lf_ok] in H. apply andb_true_iff in H. destruct H as [H _].
  rewrite beq_refl in H. simpl in H. apply negb_true_iff in H. exact H.
Qed.

(* the byte before the data, as far as the parser state determines it *)
Definition tracks (seg : bytes) (prev start : byte) : Prop := prev = last_or start seg.

Definition PInv (l : pstate) (p : parser) (prev : byte) : Prop :=
  match l with
  | eMethod => p_state p = eMethod /\ b_seg (p_val p) = []
  | ePath => prev = last_or SP (b_seg (p_start p)) /\ b_seg (p_val p) = []
  | eHeaderValue => prev = last_or x3a (b_seg (p_val p))
  | _ => b_seg (p_val p) = []
  end.

Lemma trim_last : forall v c, bad_before_lf (last_or x3a v) = false ->
  last_byte (trim_prefix_spaces v) = None -> c = tt -> False.
Proof.
  intros v c H Hn _. apply last_byte_none in Hn.
  assert (Hall : forall v, trim_prefix_spaces v = [] -> v = repeat SP (List.length v)).
  { clear. induction v as [|x v IH]; intro H; [reflexivity|]. simpl in H.
    destruct (Byte.eqb x SP) eqn:E; [|discriminate]. apply beq_eq in E. subst x. simpl.
    rewrite <- IH by exact H. reflexivity. }
  apply Hall in Hn. destruct (snoc_case _ v) as [->|(v' & x & ->)].
  - vm_compute in H. discriminate.
  - unfold last_or in H. rewrite last_byte_snoc in H.
    assert (Hx : In x (repeat SP (List.length (v' ++ [x])))).
    { rewrite <- Hn. apply in_or_app. right. left. reflexivity. }
    apply repeat_spec in Hx. subst x. discriminate.
Qed.

Lemma request_line_nopanic : forall p line, bad_before_lf (last_or SP line) = false ->
  request_line p line <> inl RPanic.
Proof.
  intros p line H Hr. unfold request_line in Hr.
  destruct (cut_last line SP) as [[rp rt]|] eqn:Ec; [|discriminate].
  destruct (last_byte rt) eqn:El.
  - destruct (cut rp x3f) as [[pa q]|].
    + destruct pa; [discriminate|]. destruct (uri_decode _); [|discriminate].
      destruct (proto_from_bytes _); discriminate.
    + destruct rp; [discriminate|]. destruct (uri_decode _); [|discriminate].
      destruct (proto_from_bytes _); discriminate.
  - apply last_byte_none in El. subst rt. apply cut_last_some in Ec. destruct Ec as [-> _].
    unfold last_or in H. rewrite last_byte_snoc in H. discriminate.
Qed.

Lemma buf_append_some : forall b d b', buf_append b d = Some b' ->
  b_done b' = b_done b /\ b_seg b' = b_seg b ++ d /\ b_max b' = b_max b /\
  (len (b_done b) + len (b_seg b ++ d) <= b_max b)%Z.
Proof.
  intros b d b' H. unfold buf_append in H.
  destruct (Z.gtb_spec (len (b_done b) + len (b_seg b) + len d) (b_max b)); [discriminate|].
  injection H as <-. simpl. rewrite len_app. repeat split; lia.
Qed.

Lemma request_line_bufs : forall p line p', request_line p line = inr p' ->
  p_start p' = p_start p /\ p_key p' = p_key p /\ p_val p' = p_val p /\ p_state p' = p_state p /\
  p_hnum p' = p_hnum p.
Proof.
  intros p line p' H. unfold request_line in H.
  destruct (cut_last line SP) as [[rp rt]|]; [|discriminate].
  destruct (last_byte rt); [|discriminate].
  destruct (cut rp x3f) as [[pa q]|].
  - destruct pa; [discriminate|]. destruct (uri_decode _); [|discriminate].
    destruct (proto_from_bytes _); try discriminate; injection H as <-; repeat split; reflexivity.
  - destruct rp; [discriminate|]. destruct (uri_decode _); [|discriminate].
    destruct (proto_from_bytes _); try discriminate; injection H as <-; repeat split; reflexivity.
Qed.

Lemma step_panic_inv : forall cfg l p prev d, PInv l p prev -> lf_ok prev d = true ->
  match step cfg l p d with
  | Goto l' p' d' => exists used, d = used ++ d' /\ PInv l' p' (last_or prev used)
  | Ret RPanic => False
  | Ret (RPending p') => PInv (p_state p') p' (last_or prev d)
  | Ret _ => True
  end.
Proof.
  intros cfg l p prev d Hi Hok. destruct l; cbn [step].
  - destruct Hi as [Hst Hv]. unfold step_method. destruct (cut d SP) as [[m rest]|] eqn:Ec.
    + apply cut_some in Ec. destruct Ec as [-> _].
      assert (Hc : forall p0 mv, b_seg (p_start p0) = [] -> b_seg (p_val p0) = [] ->
        match (match mv with
           | [] => Ret (RErr p0 ErrBadRequest)
           | _ :: _ => match method_parse mv with
               | MUnknown => Ret (RErr (set_p_req (set_method (method_parse mv) (p_req p0)) p0) ErrMethodNotImplemented)
               | _ => Goto ePath (set_p_req (set_method (method_parse mv) (p_req p0)) p0) rest
               end end) with
        | Goto l' p' d' => exists used, m ++ SP :: rest = used ++ d' /\ PInv l' p' (last_or prev used)
        | Ret RPanic => False
        | Ret (RPending p') => PInv (p_state p') p' (last_or prev (m ++ SP :: rest))
        | Ret _ => True
        end).
      { intros p0 mv H1 H2. destruct mv as [|x mv]; [exact I|].
        destruct (method_parse (x :: mv)); try exact I;
          (exists (m ++ [SP]); split; [rewrite <- app_assoc; reflexivity|];
           unfold PInv; simpl; rewrite H1, H2; split; [unfold last_or at 1; rewrite last_byte_snoc; reflexivity|reflexivity]). }
      destruct (buf_seglen (p_start p) =? 0)%Z eqn:Ez.
      * apply Hc; [|exact Hv]. apply Z.eqb_eq in Ez. unfold buf_seglen, len in Ez.
        destruct (b_seg (p_start p)); [reflexivity|simpl in Ez; lia].
      * destruct (buf_append (p_start p) m) as [b|]; [|exact I]. unfold buf_finish. apply Hc; [reflexivity|exact Hv].
    + destruct (buf_append (p_start p) d) as [b|]; [|exact I]. simpl. rewrite Hst. split; [exact Hst|exact Hv].
  - destruct Hi as [Hp Hv]. unfold step_path. destruct (cut d LF) as [[m rest]|] eqn:Ec.
    + apply cut_some in Ec. destruct Ec as [-> Hn].
      destruct (buf_append (p_start p) m) as [b|] eqn:Eb; [|exact I].
      apply buf_append_some in Eb. destruct Eb as (E1 & E2 & _ & _). unfold buf_finish.
      destruct (request_line (set_p_start (Buffer (b_done b ++ b_seg b) [] (b_max b)) p) (b_seg b)) as [r|p'] eqn:Er.
      * destruct r; try exact I.
        -- exfalso. unfold request_line in Er.
           destruct (cut_last (b_seg b) SP) as [[rp rt]|]; [|discriminate].
           destruct (last_byte rt); [|discriminate].
           destruct (cut rp x3f) as [[pa q]|].
           ++ destruct pa; [discriminate|]. destruct (uri_decode _); [|discriminate].
              destruct (proto_from_bytes _); discriminate.
           ++ destruct rp; [discriminate|]. destruct (uri_decode _); [|discriminate].
              destruct (proto_from_bytes _); discriminate.
        -- apply (request_line_nopanic _ _) in Er; [exact Er|]. rewrite E2, last_or_app, <- Hp.
           eapply lf_ok_at. exact Hok.
      * exists (m ++ [LF]). split; [rewrite <- app_assoc; reflexivity|].
        apply request_line_bufs in Er. destruct Er as (_ & _ & Ev & _). unfold PInv. rewrite Ev. exact Hv.
    + destruct (buf_append (p_start p) d) as [b|] eqn:Eb; [|exact I].
      apply buf_append_some in Eb. destruct Eb as (E1 & E2 & _ & _).
      simpl. rewrite E2, last_or_app, <- Hp. split; [reflexivity|exact Hv].
  - cbn [PInv] in Hi. unfold step_header_key. destruct d as [|c d]; [exact Hi|].
    destruct (Byte.eqb c LF); [exact I|]. destruct (Byte.eqb c CR).
    { exists [c]. split; [reflexivity|]. exact Hi. }
    destruct (cut (c :: d) x3a) as [[k rest]|] eqn:Ec.
    + apply cut_some in Ec. destruct Ec as [-> _].
      destruct (buf_append (p_key p) k) as [b|]; [|exact I].
      unfold buf_finish. cbn zeta.
      match goal with |- context [if ?b then _ else _] => destruct b; [exact I|] end.
      match goal with |- context [if ?b then _ else _] => destruct b end;
        (exists (k ++ [x3a]); split; [rewrite <- app_assoc; reflexivity|]; simpl).
      * exact Hi.
      * rewrite Hi. unfold last_or at 1. rewrite last_byte_snoc. reflexivity.
    + destruct (buf_append (p_key p) (c :: d)); [|exact I]. exact Hi.
  - cbn [PInv] in Hi. unfold step_content_length.
    destruct (clen_loop (p_clen p) d) as [n [d2|]] eqn:Ec; [|exact Hi].
    assert (Hex : exists u, d = u ++ d2).
    { clear -Ec. revert n d2 Ec. generalize (p_clen p). induction d as [|c d IH]; intros z n d2 Ec;
        unfold clen_loop in Ec; fold clen_loop in Ec; [discriminate|].
      destruct (Byte.eqb c SP); [apply IH in Ec; destruct Ec as [u ->]; exists (c :: u); reflexivity|].
      destruct (is_digit c); [apply IH in Ec; destruct Ec as [u ->]; exists (c :: u); reflexivity|].
      injection Ec as _ <-. exists []. reflexivity. }
    apply clen_loop_some in Ec. destruct Ec as [_ Hne]. destruct Hex as [u ->].
    destruct d2 as [|c d2]; [contradiction|].
    destruct (Byte.eqb c CR); [exists (u ++ [c]); split; [rewrite <- app_assoc; reflexivity|exact Hi]|].
    destruct (Byte.eqb c LF); [exists (u ++ [c]); split; [rewrite <- app_assoc; reflexivity|exact Hi]|exact I].
  - cbn [PInv] in Hi. unfold step_content_length_cr. destruct d as [|c d]; [exact Hi|].
    destruct (Byte.eqb c LF); [exists [c]; split; [reflexivity|exact Hi]|exact I].
  - cbn [PInv] in Hi. unfold step_header_value. destruct (cut d LF) as [[v rest]|] eqn:Ec.
    + apply cut_some in Ec. destruct Ec as [-> _].
      destruct (buf_append (p_val p) v) as [b|] eqn:Eb; [|exact I].
      apply buf_append_some in Eb. destruct Eb as (E1 & E2 & _ & _).
      destruct (buf_seglen b >? c_max_value cfg)%Z; [exact I|].
      unfold buf_finish. cbn zeta.
      destruct (last_byte (trim_prefix_spaces (b_seg b))) eqn:El.
      * exists (v ++ [LF]). split; [rewrite <- app_assoc; reflexivity|]. reflexivity.
      * apply (trim_last (b_seg b) tt); [|exact El|reflexivity].
        rewrite E2, last_or_app, <- Hi. eapply lf_ok_at. exact Hok.
    + destruct (buf_append (p_val p) d) as [b|] eqn:Eb; [|exact I].
      apply buf_append_some in Eb. destruct Eb as (E1 & E2 & _ & _).
      destruct (buf_seglen b >? c_max_value cfg)%Z; [exact I|].
      simpl. rewrite E2, last_or_app, <- Hi. reflexivity.
  - cbn [PInv] in Hi. unfold step_crlfcr. destruct d as [|c d]; [exact Hi|].
    destruct (Byte.eqb c LF); exact I.
Qed.

Lemma run_panic_inv : forall cfg fuel l p prev d, PInv l p prev -> lf_ok prev d = true ->
  match run cfg fuel l p d with
  | RPanic => False
  | RPending p' => PInv (p_state p') p' (last_or prev d)
  | _ => True
  end.
Proof.
  intros cfg. induction fuel as [|f IH]; intros l p prev d Hi Hok; [exact I|]. simpl.
  pose proof (step_panic_inv cfg l p prev d Hi Hok) as H.
  destruct (step cfg l p d) as [l' p' d'|r]; [|destruct r; exact H].
  destruct H as (used & -> & Hi'). rewrite lf_ok_app in Hok. apply andb_true_iff in Hok.
  specialize (IH l' p' (last_or prev used) d' Hi' (proj2 Hok)). rewrite last_or_app. exact IH.
Qed.

Lemma feed_nopanic_aux : forall cfg reads p prev, PInv (p_state p) p prev ->
  lf_ok prev (concat reads) = true -> fst (feed cfg p reads) <> RPanic.
Proof.
  intros cfg. induction reads as [|d reads IH]; intros p prev Hi Hok; [discriminate|].
  simpl in *. rewrite lf_ok_app in Hok. apply andb_true_iff in Hok. destruct Hok as [Hd Hr].
  pose proof (run_panic_inv cfg (S (List.length d)) (p_state p) p prev d Hi Hd) as H.
  unfold parse. destruct (run cfg (S (List.length d)) (p_state p) p d); simpl; try discriminate.
  - apply IH with (last_or prev d); assumption.
  - contradiction.
Qed.

(* stated without the helper functions: no LF directly after a space or a colon *)
Lemma lf_ok_spec : forall s prev, bad_before_lf prev = false ->
  (forall a c b, s = a ++ c :: LF :: b -> c <> SP /\ c <> x3a) -> lf_ok prev s = true.
Proof.
  induction s as [|x s IH]; intros prev Hp H; [reflexivity|].
  cbn [lf_ok]. rewrite Hp, andb_false_r. simpl.
  destruct (bad_before_lf x) eqn:Ex.
  - destruct s as [|y s]; [reflexivity|]. cbn [lf_ok].
    assert (Hy : Byte.eqb y LF = false).
    { apply beq_neq. intros ->. destruct (H [] x s eq_refl) as [H1 H2]. unfold bad_before_lf in Ex.
      apply orb_true_iff in Ex. destruct Ex as [Ex|Ex]; apply beq_eq in Ex; contradiction. }
    rewrite Hy. simpl. 
    assert (G : lf_ok LF (y :: s) = true).
    { apply IH; [reflexivity|]. intros a c b E. apply (H (x :: a) c b). rewrite E. reflexivity. }
    cbn [lf_ok] in G. apply andb_true_iff in G. apply G.
  - apply IH; [exact Ex|]. intros a c b E. apply (H (x :: a) c b). rewrite E. reflexivity.
Qed.

Lemma feed_nopanic : forall cfg umax kmax vmax p reads, Ready umax kmax vmax p ->
  (forall a c b, concat reads = a ++ c :: LF :: b -> c <> SP /\ c <> x3a) ->
  fst (feed cfg p reads) <> RPanic.
Proof.
  intros cfg umax kmax vmax p reads (Hst & Hs & Hk & Hv & _) H.
  apply feed_nopanic_aux with LF.
  - rewrite Hst. split; [exact Hst|]. rewrite Hv. reflexivity.
  - apply lf_ok_spec; [reflexivity|exact H].
Qed.

(* ---- memory bounds ---- *)

Definition Bounded (b : buffer) : Prop := (held b <= b_max b)%Z.

Lemma bounded_append : forall b d b', buf_append b d = Some b' -> Bounded b'.
Proof.
  intros b d b' H. apply buf_append_some in H. destruct H as (E1 & E2 & E3 & H). unfold Bounded, held.
  rewrite E1, E2, E3. exact H.
Qed.
Lemma bounded_append' : forall b d b', buf_append b d = Some b' ->
  (len (b_done b') + len (b_seg b') <= b_max b')%Z /\ b_done b' = b_done b /\ b_max b' = b_max b
  /\ b_seg b' = b_seg b ++ d.
Proof.
  intros b d b' H. pose proof (bounded_append _ _ _ H). apply buf_append_some in H.
  destruct H as (H1 & H2 & H3 & _). repeat split; assumption.
Qed.

Section Bounds.
Variable cfg : hcfg.
Variables umax kmax vmax : Z.
Hypothesis Hnh : (0 <= c_max_headers cfg)%Z.
Hypothesis Htok : (0 <= c_max_enc_tokens cfg)%Z.

Let lim := cfg_limits cfg umax kmax vmax.

Definition BuffersOK (p : parser) : Prop :=
  Bounded (p_start p) /\ b_max (p_start p) = umax /\
  Bounded (p_key p) /\ b_max (p_key p) = kmax /\
  Bounded (p_val p) /\ b_max (p_val p) = vmax.

Definition ReqOK (p : parser) (pending_key : Z) (pending : Z) : Prop :=
  let r := p_req p in
  (len (r_path r) <= umax)%Z /\ (len (q_raw (r_query r)) <= umax)%Z /\
  (Z.of_nat (List.length (kv_pairs (r_headers r))) + pending <= p_hnum p <= c_max_headers cfg)%Z /\
  (sum_len (map fst (kv_pairs (r_headers r))) + pending_key <= len (b_done (p_key p)))%Z /\
  (sum_len (map snd (kv_pairs (r_headers r))) <= len (b_done (p_val p)))%Z /\
  Forall (fun kv => len (snd kv) <= c_max_value cfg)%Z (kv_pairs (r_headers r)) /\
  (Z.of_nat (List.length (enc_transfer (r_encoding r))) <= c_max_enc_tokens cfg)%Z /\
  (Z.of_nat (List.length (enc_content (r_encoding r))) <= c_max_enc_tokens cfg)%Z.

Definition BInv (l : pstate) (p : parser) : Prop :=
  BuffersOK p /\ (l = eMethod -> p_state p = eMethod) /\
  match l with
  | eHeaderValue => ReqOK p (len (p_hkey p)) 1
  | _ => ReqOK p 0 0
  end.

Definition BPost (r : pres) : Prop :=
  forall p, parser_after r = Some p -> BuffersOK p /\ Within lim (p_req p).

Lemma ReqOK_within : forall p k n, (0 <= k)%Z -> (0 <= n)%Z -> BuffersOK p -> ReqOK p k n -> Within lim (p_req p).
Proof.
  intros p k n Hk Hn (B1 & B2 & B3 & B4 & B5 & B6) (R1 & R2 & R3 & R4 & R5 & R6 & R7 & R8).
  unfold Bounded, held in *. pose proof (len_nonneg (b_seg (p_key p))). pose proof (len_nonneg (b_seg (p_val p))).
  constructor; simpl; try assumption; lia.
Qed.

Lemma BInv_within : forall l p, BInv l p -> BuffersOK p /\ Within lim (p_req p).
Proof.
  intros l p (HB & _ & H). split; [exact HB|].
  destruct l; try (eapply ReqOK_within; [| |exact HB|exact H]; lia).
  eapply ReqOK_within; [| |exact HB|exact H]; [apply len_nonneg|lia].
Qed.

Lemma sum_len_app : forall a b, sum_len (a ++ b) = (sum_len a + sum_len b)%Z.
Proof. unfold sum_len. induction a as [|x a IH]; intro b; simpl; [reflexivity|]. rewrite IH. lia. Qed.

Lemma trim_prefix_len : forall v, (len (trim_prefix_spaces v) <= len v)%Z.
Proof.
  induction v as [|c v IH]; simpl; [lia|]. destruct (Byte.eqb c SP); rewrite ?len_cons; lia.
Qed.
Lemma drop_last_len : forall v, (len (drop_last v) <= len v)%Z.
Proof. intro v. unfold len. destruct v as [|x v]; [simpl; lia|]. rewrite drop_last_length. lia. Qed.

Lemma parse_encoding_bound : forall fuel v max buff ch, (Z.of_nat (List.length buff) <= max)%Z -> (0 <= max)%Z ->
  (Z.of_nat (List.length (fst (parse_encoding fuel v max buff ch))) <= max)%Z.
Proof.
  induction fuel as [|f IH]; intros v max buff ch Hb Hm; [exact Hb|].
  cbn [parse_encoding]. destruct v as [|x v]; [exact Hb|].
  destruct (cut (x :: v) x2c) as [[a b]|].
  - destruct (trim_space a) as [|y t]; [apply IH; assumption|].
    destruct (Z.gtb_spec (Z.of_nat (List.length buff) + 1) max); [exact Hm|].
    apply IH; [|exact Hm]. rewrite app_length. simpl. lia.
  - destruct (trim_space (x :: v)) as [|y t]; [apply IH; assumption|].
    destruct (Z.gtb_spec (Z.of_nat (List.length buff) + 1) max); [exact Hm|].
    apply IH; [|exact Hm]. rewrite app_length. simpl. lia.
Qed.
Lemma parse_encoding_string_bound : forall v,
  (Z.of_nat (List.length (fst (parse_encoding_string v (c_max_enc_tokens cfg)))) <= c_max_enc_tokens cfg)%Z.
Proof. intro v. apply parse_encoding_bound; simpl; lia. Qed.

(* what a header does to the fields the bounds talk about *)
Lemma apply_header_bounds : forall k v r,
  r_path (apply_header cfg k v r) = r_path r /\ r_query (apply_header cfg k v r) = r_query r /\
  kv_pairs (r_headers (apply_header cfg k v r)) = kv_pairs (r_headers r) ++ [(k, v)] /\
  ((Z.of_nat (List.length (enc_transfer (r_encoding r))) <= c_max_enc_tokens cfg)%Z ->
   (Z.of_nat (List.length (enc_transfer (r_encoding (apply_header cfg k v r)))) <= c_max_enc_tokens cfg)%Z) /\
  ((Z.of_nat (List.length (enc_content (r_encoding r))) <= c_max_enc_tokens cfg)%Z ->
   (Z.of_nat (List.length (enc_content (r_encoding (apply_header cfg k v r)))) <= c_max_enc_tokens cfg)%Z).
Proof.
  intros k v r. unfold apply_header.
  assert (T : forall rr, rr = set_headers (kv_add (r_headers r) k v) r ->
    r_path rr = r_path r /\ r_query rr = r_query r /\
    kv_pairs (r_headers rr) = kv_pairs (r_headers r) ++ [(k, v)] /\ r_encoding rr = r_encoding r).
  { intros rr ->. repeat split; reflexivity. }
  specialize (T _ eq_refl). remember (set_headers (kv_add (r_headers r) k v) r) as rr eqn:Err. clear Err.
  destruct T as (T1 & T2 & T3 & T4).
  assert (U : forall r2, r_path r2 = r_path rr -> r_query r2 = r_query rr -> r_headers r2 = r_headers rr ->
     r_encoding r2 = r_encoding rr ->
    r_path r2 = r_path r /\ r_query r2 = r_query r /\
    kv_pairs (r_headers r2) = kv_pairs (r_headers r) ++ [(k, v)] /\
    ((Z.of_nat (List.length (enc_transfer (r_encoding r))) <= c_max_enc_tokens cfg)%Z ->
     (Z.of_nat (List.length (enc_transfer (r_encoding r2))) <= c_max_enc_tokens cfg)%Z) /\
    ((Z.of_nat (List.length (enc_content (r_encoding r))) <= c_max_enc_tokens cfg)%Z ->
     (Z.of_nat (List.length (enc_content (r_encoding r2))) <= c_max_enc_tokens cfg)%Z)).
  { intros r2 -> -> -> ->. rewrite T4. repeat split; try assumption; tauto. }
  destruct (List.length k) as [|[|[|[|[|[|[|[|[|[|[|[|[|[|[|[|[|[|nn]]]]]]]]]]]]]]]]]];
    try (apply U; reflexivity).
  - destruct (key_is k (B "upgrade")); [apply U; reflexivity|].
    destruct (key_is k (B "trailer")); [|apply U; reflexivity].
    simpl. rewrite T4. repeat split; try assumption; tauto.
  - destruct (key_is k (B "connection")); apply U; reflexivity.
  - destruct (key_is k (B "content-type")); apply U; reflexivity.
  - destruct (key_is k (B "content-encoding")); [|apply U; reflexivity].
    simpl. rewrite T4. repeat split; try assumption; try tauto. intros _. apply parse_encoding_string_bound.
  - destruct (key_is k (B "transfer-encoding")); [|apply U; reflexivity].
    pose proof (parse_encoding_string_bound v) as Hb.
    destruct (parse_encoding_string v (c_max_enc_tokens cfg)) as [toks ch].
    simpl in *. rewrite T4. repeat split; try assumption; try tauto.
Qed.

Lemma request_line_spec : forall p line res, request_line p line = res ->
  forall p', (res = inr p' \/ exists e, res = inl (RErr p' e)) ->
  p_start p' = p_start p /\ p_key p' = p_key p /\ p_val p' = p_val p /\ p_state p' = p_state p /\
  p_hnum p' = p_hnum p /\ r_headers (p_req p') = r_headers (p_req p) /\
  r_encoding (p_req p') = r_encoding (p_req p) /\
  (len (r_path (p_req p')) <= len (r_path (p_req p)) \/ len (r_path (p_req p')) <= len line)%Z /\
  (q_raw (r_query (p_req p')) = q_raw (r_query (p_req p)) \/ len (q_raw (r_query (p_req p'))) <= len line)%Z.
Proof.
  intros p line res H p' Hres. unfold request_line in H.
  destruct (cut_last line SP) as [[rp rt]|] eqn:Ecl.
  2:{ subst res. destruct Hres as [Hres|[e Hres]]; [discriminate|]. injection Hres as <- _.
      repeat split; left; try reflexivity; lia. }
  apply cut_last_some in Ecl. destruct Ecl as [Hline _].
  assert (Hrp : (len rp <= len line)%Z).
  { rewrite Hline, len_app. pose proof (len_nonneg (SP :: rt)). lia. }
  destruct (last_byte rt); [|subst res; destruct Hres as [Hres|[e Hres]]; discriminate].
  destruct (cut rp x3f) as [[pa q]|] eqn:Ec.
  - apply cut_some in Ec. destruct Ec as [Erp _].
    assert (Hq : (len q <= len line)%Z /\ (len pa <= len line)%Z).
    { subst rp. rewrite len_app, len_cons in Hrp. pose proof (len_nonneg pa). pose proof (len_nonneg q). lia. }
    destruct Hq as [Hq Hpa]. pose proof (query_set_raw (r_query (p_req p)) q) as [Hqs _].
    destruct pa as [|x pa].
    { subst res. destruct Hres as [Hres|[e Hres]]; [discriminate|]. injection Hres as <- _. simpl.
      rewrite Hqs. repeat split; [left; lia|right; exact Hq]. }
    destruct (uri_decode (x :: pa)) as [path|] eqn:Eu.
    2:{ subst res. destruct Hres as [Hres|[e Hres]]; [discriminate|]. injection Hres as <- _. simpl.
        rewrite Hqs. repeat split; [left; lia|right; exact Hq]. }
    apply uri_decode_length in Eu.
    assert (Hpath : (len path <= len line)%Z) by (unfold len in *; lia).
    assert (p' = set_p_req
          (set_proto (proto_from_bytes (if Byte.eqb b CR then drop_last rt else rt))
             (set_path path (set_query (query_set (r_query (p_req p)) q) (p_req p))))
          (set_p_req (set_query (query_set (r_query (p_req p)) q) (p_req p)) p)) as ->.
    { cbn [p_req set_p_req] in H.
      destruct (proto_from_bytes (if Byte.eqb b CR then drop_last rt else rt));
        subst res; destruct Hres as [Hres|[e Hres]]; try discriminate; injection Hres; intros; subst; reflexivity. }
    simpl. rewrite Hqs. repeat split; right; assumption.
  - destruct rp as [|x rp].
    { subst res. destruct Hres as [Hres|[e Hres]]; [discriminate|]. injection Hres as <- _. simpl.
      repeat split; left; try reflexivity; lia. }
    destruct (uri_decode (x :: rp)) as [path|] eqn:Eu.
    2:{ subst res. destruct Hres as [Hres|[e Hres]]; [discriminate|]. injection Hres as <- _. simpl.
        repeat split; left; try reflexivity; lia. }
    apply uri_decode_length in Eu.
    assert (Hpath : (len path <= len line)%Z) by (unfold len in *; lia).
    assert (p' = set_p_req
          (set_proto (proto_from_bytes (if Byte.eqb b CR then drop_last rt else rt))
             (set_path path (p_req p))) p) as ->.
    { destruct (proto_from_bytes (if Byte.eqb b CR then drop_last rt else rt));
        subst res; destruct Hres as [Hres|[e Hres]]; try discriminate; injection Hres; intros; subst; reflexivity. }
    simpl. repeat split; [right; assumption|left; reflexivity].
Qed.

Lemma request_line_other : forall p line r, request_line p line = inl r ->
  (exists p' e, r = RErr p' e) \/ r = RPanic.
Proof.
  intros p line r H. unfold request_line in H.
  destruct (cut_last line SP) as [[rp rt]|]; [|injection H as <-; left; eexists _, _; reflexivity].
  destruct (last_byte rt); [|injection H as <-; right; reflexivity].
  destruct (cut rp x3f) as [[pa q]|].
  - destruct pa; [injection H as <-; left; eexists _, _; reflexivity|].
    destruct (uri_decode _); [|injection H as <-; left; eexists _, _; reflexivity].
    destruct (proto_from_bytes _); try discriminate; injection H as <-; left; eexists _, _; reflexivity.
  - destruct rp; [injection H as <-; left; eexists _, _; reflexivity|].
    destruct (uri_decode _); [|injection H as <-; left; eexists _, _; reflexivity].
    destruct (proto_from_bytes _); try discriminate; injection H as <-; left; eexists _, _; reflexivity.
Qed.

Definition BOut (j : jump) : Prop :=
  match j with
  | Goto l p _ => BInv l p
  | Ret (RPending p) => BInv (p_state p) p
  | Ret (RDone p _) => BuffersOK p /\ Within lim (p_req p)
  | Ret (RErr p _) => BuffersOK p /\ Within lim (p_req p)
  | Ret _ => True
  end.

Lemma BInv_err : forall l p e, BInv l p -> BOut (Ret (RErr p e)).
Proof. intros l p e H. exact (BInv_within l p H). Qed.

Lemma cleanup_ok : forall l p d, (0 <= umax)%Z -> (0 <= kmax)%Z -> (0 <= vmax)%Z ->
  BInv l p -> BOut (Ret (RDone (cleanup p) d)).
Proof.
  intros l p d Hu Hk Hv H. pose proof (BInv_within l p H) as [_ Hw].
  destruct H as ((B1 & B2 & B3 & B4 & B5 & B6) & _). split; [|exact Hw].
  unfold BuffersOK, Bounded, held, cleanup, buf_clear. simpl. rewrite B2, B4, B6, len_nil. repeat split; lia.
Qed.

Lemma step_bounds : forall l p d, (0 <= umax)%Z -> (0 <= kmax)%Z -> (0 <= vmax)%Z ->
  BInv l p -> BOut (step cfg l p d).
Proof.
  intros l p d Hu Hkm Hvm Hi. destruct l; cbn [step].
  - unfold step_method.
    destruct Hi as ((B1 & B2 & B3 & B4 & B5 & B6) & Hst & HR).
    destruct (cut d SP) as [[m rest]|] eqn:Ec.
    + assert (Hc : forall p0 mv, BuffersOK p0 -> ReqOK p0 0 0 ->
         BOut (match mv with
           | [] => Ret (RErr p0 ErrBadRequest)
           | _ :: _ => match method_parse mv with
               | MUnknown => Ret (RErr (set_p_req (set_method (method_parse mv) (p_req p0)) p0) ErrMethodNotImplemented)
               | _ => Goto ePath (set_p_req (set_method (method_parse mv) (p_req p0)) p0) rest
               end end)).
      { intros p0 mv HB0 HR0. destruct mv as [|x mv].
        - split; [exact HB0|]. apply (ReqOK_within p0 0 0); try lia; assumption.
        - assert (HE : BuffersOK (set_p_req (set_method (method_parse (x :: mv)) (p_req p0)) p0) /\
                       ReqOK (set_p_req (set_method (method_parse (x :: mv)) (p_req p0)) p0) 0 0)
            by (split; assumption).
          revert HE. destruct (method_parse (x :: mv)); cbn [BOut]; intro HE;
            try (split; [apply HE|]; apply (ReqOK_within _ 0 0); try lia; apply HE);
            (split; [exact HB0|]; split; [discriminate|exact HR0]). }
      destruct (buf_seglen (p_start p) =? 0)%Z.
      * apply Hc; [repeat split; assumption|exact HR].
      * destruct (buf_append (p_start p) m) as [b|] eqn:Eb.
        -- apply bounded_append' in Eb. destruct Eb as (E1 & E2 & E3 & E4). unfold buf_finish. apply Hc.
           ++ repeat split; try assumption; simpl; [|congruence].
              unfold Bounded, held. simpl. rewrite len_app, len_nil. lia.
           ++ exact HR.
        -- split; [repeat split; assumption|]. apply (ReqOK_within p 0 0); try lia; [repeat split; assumption|exact HR].
    + destruct (buf_append (p_start p) d) as [b|] eqn:Eb.
      * apply bounded_append' in Eb. destruct Eb as (E1 & E2 & E3 & E4).
        simpl. rewrite (Hst eq_refl). split; [|split; [intro; apply Hst; reflexivity|exact HR]].
        repeat split; try assumption; simpl; congruence.
      * split; [repeat split; assumption|]. apply (ReqOK_within p 0 0); try lia; [repeat split; assumption|exact HR].
  - unfold step_path. pose proof Hi as ((B1 & B2 & B3 & B4 & B5 & B6) & Hst & HR).
    destruct (cut d LF) as [[m rest]|] eqn:Ec.
    + destruct (buf_append (p_start p) m) as [b|] eqn:Eb; [|apply (BInv_err _ _ _ Hi)].
      apply bounded_append' in Eb. destruct Eb as (E1 & E2 & E3 & E4). unfold buf_finish.
      set (p0 := set_p_start (Buffer (b_done b ++ b_seg b) [] (b_max b)) p).
      assert (HB0 : BuffersOK p0).
      { repeat split; try assumption; simpl; [|congruence]. unfold Bounded, held. simpl. rewrite len_app, len_nil. lia. }
      assert (HR0 : ReqOK p0 0 0) by exact HR.
      assert (Hline : (len (b_seg b) <= umax)%Z).
      { pose proof (len_nonneg (b_done b)). rewrite <- B2, <- E3. lia. }
      assert (Hres : forall p', p_start p' = p_start p0 /\ p_key p' = p_key p0 /\ p_val p' = p_val p0 /\ p_state p' = p_state p0 /\
          p_hnum p' = p_hnum p0 /\ r_headers (p_req p') = r_headers (p_req p0) /\
          r_encoding (p_req p') = r_encoding (p_req p0) /\
          (len (r_path (p_req p')) <= len (r_path (p_req p0)) \/ len (r_path (p_req p')) <= len (b_seg b))%Z /\
          (q_raw (r_query (p_req p')) = q_raw (r_query (p_req p0)) \/ len (q_raw (r_query (p_req p'))) <= len (b_seg b))%Z ->
          BuffersOK p' /\ ReqOK p' 0 0).
      { intros p' (Q1 & Q2 & Q3 & Q4 & Q5 & Q6 & Q7 & Q8 & Q9).
        unfold BuffersOK, ReqOK in *. rewrite Q1, Q2, Q3, Q5, Q6, Q7.
        destruct HR0 as (R1 & R2 & R3 & R4 & R5 & R6 & R7 & R8).
        split; [exact HB0|]. repeat split; try assumption; try lia.
        destruct Q9 as [->|Q9]; [assumption|lia]. }
      destruct (request_line p0 (b_seg b)) as [r|p'] eqn:Er.
      * destruct (request_line_other _ _ _ Er) as [(p' & e & ->)| ->]; [|exact I].
        pose proof (request_line_spec _ _ _ Er p' (or_intror (ex_intro _ e eq_refl))) as Hs.
        apply Hres in Hs. destruct Hs as [Hs1 Hs2]. split; [exact Hs1|].
        apply (ReqOK_within p' 0 0); try lia; assumption.
      * pose proof (request_line_spec _ _ _ Er p' (or_introl eq_refl)) as Hs.
        apply Hres in Hs. destruct Hs as [Hs1 Hs2]. split; [exact Hs1|]. split; [discriminate|exact Hs2].
    + destruct (buf_append (p_start p) d) as [b|] eqn:Eb; [|apply (BInv_err _ _ _ Hi)].
      apply bounded_append' in Eb. destruct Eb as (E1 & E2 & E3 & E4).
      split; [|split; [discriminate|exact HR]].
      repeat split; try assumption; simpl; congruence.
  - unfold step_header_key. pose proof Hi as ((B1 & B2 & B3 & B4 & B5 & B6) & Hst & HR).
    destruct d as [|c d].
    { split; [repeat split; assumption|split; [discriminate|exact HR]]. }
    destruct (Byte.eqb c LF); [apply (cleanup_ok eHeaderKey); assumption|].
    destruct (Byte.eqb c CR).
    { split; [repeat split; assumption|split; [discriminate|exact HR]]. }
    destruct (cut (c :: d) x3a) as [[k rest]|] eqn:Ec.
    + destruct (buf_append (p_key p) k) as [b|] eqn:Eb; [|apply (BInv_err _ _ _ Hi)].
      apply bounded_append' in Eb. destruct Eb as (E1 & E2 & E3 & E4). unfold buf_finish. cbn zeta.
      set (p0 := set_p_hnum (p_hnum p + 1) (set_p_hkey (b_seg b) (set_p_key (Buffer (b_done b ++ b_seg b) [] (b_max b)) p))).
      assert (HB0 : BuffersOK p0).
      { repeat split; try assumption; simpl; [|congruence]. unfold Bounded, held. simpl. rewrite len_app, len_nil. lia. }
      destruct HR as (R1 & R2 & R3 & R4 & R5 & R6 & R7 & R8).
      simpl (p_hnum p0).
      destruct (Z.gtb_spec (p_hnum p + 1) (c_max_headers cfg)) as [Hg|Hg].
      * split; [exact HB0|].
        assert (HW : Within lim (p_req p)) by (apply (BInv_within eHeaderKey p Hi)). exact HW.
      * assert (HR0 : ReqOK p0 (len (b_seg b)) 1).
        { unfold ReqOK. simpl. rewrite E2, len_app. repeat split; try assumption; try lia. }
        destruct (key_is (b_seg b) (B "content-length")).
        -- split; [exact HB0|]. split; [discriminate|]. unfold ReqOK in *. simpl in *.
           pose proof (len_nonneg (b_seg b)). repeat split; try apply HR0; lia.
        -- split; [exact HB0|]. split; [discriminate|]. exact HR0.
    + destruct (buf_append (p_key p) (c :: d)) as [b|] eqn:Eb; [|apply (BInv_err _ _ _ Hi)].
      apply bounded_append' in Eb. destruct Eb as (E1 & E2 & E3 & E4).
      split; [repeat split; try assumption; simpl; congruence|]. split; [discriminate|].
      unfold ReqOK in *. simpl. rewrite E2. exact HR.
  - unfold step_content_length. pose proof Hi as (HB & Hst & HR).
    destruct (clen_loop (p_clen p) d) as [n [d2|]].
    + destruct d2 as [|c d2]; [exact I|].
      destruct (Byte.eqb c CR); [split; [exact HB|split; [discriminate|exact HR]]|].
      destruct (Byte.eqb c LF); [split; [exact HB|split; [discriminate|exact HR]]|].
      split; [exact HB|]. destruct (BInv_within _ _ Hi) as [_ [W1 W2 W3 W4 W5 W6 W7 W8]].
      constructor; assumption.
    + split; [exact HB|split; [discriminate|exact HR]].
  - unfold step_content_length_cr. pose proof Hi as (HB & Hst & HR).
    destruct d as [|c d]; [split; [exact HB|split; [discriminate|exact HR]]|].
    destruct (Byte.eqb c LF); [split; [exact HB|split; [discriminate|exact HR]]|].
    apply (BInv_err _ _ _ Hi).
  - unfold step_header_value. pose proof Hi as ((B1 & B2 & B3 & B4 & B5 & B6) & Hst & HR).
    destruct (cut d LF) as [[v rest]|] eqn:Ec.
    + destruct (buf_append (p_val p) v) as [b|] eqn:Eb; [|apply (BInv_err _ _ _ Hi)].
      apply bounded_append' in Eb. destruct Eb as (E1 & E2 & E3 & E4).
      unfold buf_seglen.
      destruct (Z.gtb_spec (len (b_seg b)) (c_max_value cfg)) as [Hg|Hg].
      { split; [repeat split; try assumption; simpl; congruence|].
        destruct (BInv_within _ _ Hi) as [_ Hw]. exact Hw. }
      unfold buf_finish. cbn zeta.
      destruct (last_byte (trim_prefix_spaces (b_seg b))) as [c|]; [|exact I].
      set (value := if Byte.eqb c CR then drop_last (trim_prefix_spaces (b_seg b)) else trim_prefix_spaces (b_seg b)).
      assert (Hval : (len value <= len (b_seg b))%Z).
      { pose proof (trim_prefix_len (b_seg b)). pose proof (drop_last_len (trim_prefix_spaces (b_seg b))).
        unfold value. destruct (Byte.eqb c CR); lia. }
      split; [|split; [discriminate|]].
      * repeat split; try assumption; simpl; [|congruence]. unfold Bounded, held. simpl. rewrite len_app, len_nil. lia.
      * cbn [p_req p_hkey set_p_val].
        destruct (apply_header_bounds (p_hkey p) value (p_req p)) as (A1 & A2 & A3 & A4 & A5).
        destruct HR as (R1 & R2 & R3 & R4 & R5 & R6 & R7 & R8).
        unfold ReqOK. cbn [p_req set_p_req set_p_val p_hnum p_key p_val b_done].
        rewrite A1, A2, A3, !map_app, !sum_len_app, app_length. simpl (map _ [_]). simpl (sum_len [_]).
        cbn [fst snd List.length].
        repeat split; try assumption; try lia.
        -- rewrite !Z.add_0_r. exact R4.
        -- rewrite len_app, E2, Z.add_0_r. apply Z.add_le_mono; [exact R5|exact Hval].
        -- apply Forall_app. split; [assumption|]. constructor; [simpl; lia|constructor].
    + destruct (buf_append (p_val p) d) as [b|] eqn:Eb; [|apply (BInv_err _ _ _ Hi)].
      apply bounded_append' in Eb. destruct Eb as (E1 & E2 & E3 & E4).
      unfold buf_seglen.
      destruct (Z.gtb_spec (len (b_seg b)) (c_max_value cfg)) as [Hg|Hg].
      { split; [repeat split; try assumption; simpl; congruence|].
        destruct (BInv_within _ _ Hi) as [_ Hw]. exact Hw. }
      split; [repeat split; try assumption; simpl; congruence|]. split; [discriminate|].
      unfold ReqOK in *. simpl. rewrite E2. exact HR.
  - unfold step_crlfcr. pose proof Hi as (HB & Hst & HR).
    destruct d as [|c d]; [split; [exact HB|split; [discriminate|exact HR]]|].
    destruct (Byte.eqb c LF); [apply (cleanup_ok eHeaderValueCRLFCR); assumption|].
    apply (BInv_err _ _ _ Hi).
Qed.

Lemma feed_bounds : forall p reads, (0 <= umax)%Z -> (0 <= kmax)%Z -> (0 <= vmax)%Z ->
  Ready umax kmax vmax p -> kv_pairs (r_headers (p_req p)) = [] -> Within lim (p_req p) ->
  BPost (fst (feed cfg p reads)).
Proof.
  intros p reads Hu Hk Hv (Hst & Hs & Hkb & Hvb & Hn & Hc) Hh Hw.
  apply feed_inv with (Inv := BInv).
  - intros l q d l' q' d' Hi E. pose proof (step_bounds l q d Hu Hk Hv Hi) as H. rewrite E in H. exact H.
  - intros l q d q' Hi E. pose proof (step_bounds l q d Hu Hk Hv Hi) as H. rewrite E in H. exact H.
  - intros l q d r Hi E. pose proof (step_bounds l q d Hu Hk Hv Hi) as H. rewrite E in H.
    intros p' Hp. destruct r; simpl in Hp; try discriminate; injection Hp as <-.
    + apply (BInv_within _ _ H).
    + exact H.
    + exact H.
  - intros q Hi p' Hp. injection Hp as <-. apply (BInv_within _ _ Hi).
  - destruct Hw as [W1 W2 W3 W4 W5 W6 W7 W8]. simpl in *.
    rewrite Hst. unfold BInv, BuffersOK, Bounded, held, ReqOK. rewrite Hs, Hkb, Hvb, Hn, Hh. simpl.
    rewrite len_nil. repeat split; try (intros; assumption); try lia. constructor.
Qed.
End Bounds.
