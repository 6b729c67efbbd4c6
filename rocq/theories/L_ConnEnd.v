(* How connections end. *)
From Verif Require Import M_Base M_Status M_Method M_Proto M_KeyValue M_Query M_Request M_Parser M_Client M_Body
  M_Response M_Serializer M_Suit S_Conn.
Lemma line_refusal : forall p d q e, request_line p d = inl (RErr q e) -> Refusal e.
Proof.
  intros p d q e. unfold Refusal, request_line.
  repeat match goal with |- context [match ?x with _ => _ end] => destruct x; try discriminate end;
  intros H; apply (f_equal (fun j => match j with inl (RErr _ e) => e | _ => ErrShutdown end)) in H; subst e; auto 15.
Qed.
Lemma step_refusal : forall cfg l p d q e, step cfg l p d = Ret (RErr q e) -> Refusal e.
Proof.
  intros cfg l p d q e. destruct l; cbn [step].
  2:{ unfold step_path. destruct (cut d LF) as [[l rest]|].
      - destruct (buf_append (p_start p) l) as [b|]; [|intros H; injection H as _ <-; unfold Refusal; auto 15].
        destruct (buf_finish b) as [line b']. destruct (request_line (set_p_start b' p) line) eqn:E; [|discriminate].
        intros H. injection H as ->. exact (line_refusal _ _ _ _ E).
      - destruct (buf_append (p_start p) d); [discriminate|]. intros H; injection H as _ <-; unfold Refusal; auto 15. }
  all: unfold Refusal, step_method, step_header_key, step_content_length, step_content_length_cr, step_header_value, step_crlfcr;
    repeat match goal with |- context [match ?x with _ => _ end] => destruct x; try discriminate end;
    intros H; apply (f_equal (fun j => match j with Ret (RErr _ e) => e | _ => ErrShutdown end)) in H; subst e; auto 15.
Qed.
Lemma run_refusal : forall cfg fuel l p d q e, run cfg fuel l p d = RErr q e -> Refusal e.
Proof.
  intros cfg. induction fuel as [|n IH]; intros l p d q e H; cbn [run] in H; [discriminate|].
  destruct (step cfg l p d) as [l' p' d'|r] eqn:E; [exact (IH _ _ _ _ _ H)|]. subst r. exact (step_refusal _ _ _ _ _ _ E).
Qed.
Lemma parse_refusal : forall cfg p d q e, parse cfg p d = RErr q e -> Refusal e.
Proof. intros cfg p d q e H. exact (run_refusal _ _ _ _ _ _ _ H). Qed.

Section End.
Variable CS W : Type.
Variable cparse : CS -> bytes -> bool -> CS * (bytes * bytes * option cerr).
Variable max : Z.
Variable cfg : hcfg.
Variable seen : W -> list call.
Variable on_request : W -> request -> hprog W.
Variable on_error : W -> request -> http_error -> hprog W.
Hypothesis N : Notices cparse max seen on_request on_error.
Implicit Type st : conn CS W.

Lemma close_seen : forall e st e' st', close_with cparse max on_error e st = (e', st') -> e' <> EndPanic -> e' <> EndStuck ->
  e' = e /\ seen (k_world st') = seen (k_world st) ++ [CError ErrCloseConnection].
Proof.
  intros e st e' st' H H1 H2. unfold close_with in H. destruct (run_handler _ _ _ _ _ _) eqn:E; try (injection H as <- _; congruence).
  apply (proj2 N) in E. injection H as <- <-. split; [reflexivity|exact E].
Qed.
Lemma closes_more : forall l e l', Closes (l ++ [CRequest]) e l' -> Closes l e l'.
Proof.
  intros l e l'. destruct e; cbn [Closes]; try exact (fun x => x).
  - intros (n & ->). exists (S n). rewrite <- app_assoc. reflexivity.
  - intros (n & ->). exists (S n). rewrite <- app_assoc. reflexivity.
  - intros (n & ->). exists (S n). rewrite <- app_assoc. reflexivity.
  - intros (n & ->). exists (S n). rewrite <- app_assoc. reflexivity.
  - intros (n & er & -> & Hr). exists (S n), er. rewrite <- app_assoc. split; [reflexivity|exact Hr].
Qed.
Lemma head_seen : forall st extra,
  match on_head cparse max on_request on_error st extra with
  | inl (e, st') => Closes (seen (k_world st)) e (seen (k_world st')) /\ e <> EndRead /\ e <> EndParse
  | inr st' => seen (k_world st') = seen (k_world st) ++ [CRequest]
  end.
Proof.
  intros st extra. unfold on_head.
  match goal with |- context [if wants_switch ?r then ?a else ?b] => destruct (if wants_switch r then a else b) as [[s pre] version] end.
  destruct (run_handler _ _ (on_request _ _) _ _ _) as [resp w r' b' c'|r' b' c'|] eqn:E; [|repeat split; discriminate|repeat split; discriminate].
  apply (proj1 N) in E. destruct (r_hijacked r').
  { split; [|split; discriminate]. exists 0%nat. exact E. }
  destruct (write_response version r' (not_nil resp) s c') as [[[res s'] c''] f'].
  assert (C : forall e st1 x, (e = EndWrite \/ e = EndClear) -> k_world st1 = w -> close_with cparse max on_error e st1 = x ->
     Closes (seen (k_world st)) (fst x) (seen (k_world (snd x))) /\ fst x <> EndRead /\ fst x <> EndParse).
  { intros e st1 [e' st'] He Hw H. cbn [fst snd].
    assert (D : e' = EndPanic \/ e' = EndStuck \/ e' = e).
    { unfold close_with in H. destruct (run_handler _ _ _ _ _ _); injection H as <- _; auto. }
    destruct D as [ -> |[ -> |De]]; [repeat split; discriminate|repeat split; discriminate|].
    assert (P1 : e' <> EndPanic) by (subst e'; destruct He as [ -> | -> ]; discriminate).
    assert (P2 : e' <> EndStuck) by (subst e'; destruct He as [ -> | -> ]; discriminate).
    destruct (close_seen e st1 e' st' H P1 P2) as [ -> Hs]. split; [|destruct He as [ -> | -> ]; split; discriminate].
    assert (G : exists n, seen (k_world st') = seen (k_world st) ++ repeat CRequest (S n) ++ [CError ErrCloseConnection]).
    { exists 0%nat. rewrite Hs, Hw, E, <- app_assoc. reflexivity. }
    destruct He as [ -> | -> ]; exact G. }
  destruct res.
  - destruct (request_clear_full cparse max r' b' c'') as [[[res2 r2] b2] c2]. destruct res2 as [[er|]|].
    + match goal with |- context [close_with _ _ _ ?e ?s] => destruct (close_with cparse max on_error e s) as [e' st'] eqn:H; exact (C e s _ (or_intror eq_refl) eq_refl H) end.
    + exact E.
    + repeat split; discriminate.
  - match goal with |- context [close_with _ _ _ ?e ?s] => destruct (close_with cparse max on_error e s) as [e' st'] eqn:H; exact (C e s _ (or_introl eq_refl) eq_refl H) end.
  - match goal with |- context [close_with _ _ _ ?e ?s] => destruct (close_with cparse max on_error e s) as [e' st'] eqn:H; exact (C e s _ (or_introl eq_refl) eq_refl H) end.
  - repeat split; discriminate.
  - repeat split; discriminate.
Qed.
Theorem end_seen : forall fuel st e st', serve cparse max cfg on_request on_error fuel st = (e, st') ->
  Closes (seen (k_world st)) e (seen (k_world st')).
Proof.
  induction fuel as [|n IH]; intros st e st' H; cbn [serve] in H; [injection H as <- _; exact I|].
  destruct (client_read (k_client st)) as [[data er] c1]. destruct er as [er|].
  - assert (D : e = EndPanic \/ e = EndStuck \/ e = EndRead).
    { unfold close_with in H. destruct (run_handler _ _ _ _ _ _); injection H as <- _; auto. }
    destruct D as [ -> |[ -> | -> ]]; [exact I|exact I|]. apply close_seen in H; [|discriminate|discriminate]. destruct H as [_ H]. exists 0%nat. exact H.
  - destruct (parse cfg (k_parser (set_k_client c1 st)) data) as [p|p extra|p er| |] eqn:Ep; [exact (IH _ _ _ H)| | |injection H as <- _; exact I|injection H as <- _; exact I].
    + pose proof (head_seen (set_k_parser p (set_k_client c1 st)) extra) as G.
      destruct (on_head cparse max on_request on_error (set_k_parser p (set_k_client c1 st)) extra) as [[e1 st1]|st1].
      * injection H as <- <-. exact (proj1 G).
      * apply IH in H. rewrite G in H. apply closes_more. exact H.
    + unfold on_bad_head in H. destruct (run_handler _ _ _ _ _ _) as [resp w r' b' c'|r' b' c'|] eqn:E; [|injection H as <- _; exact I|injection H as <- _; exact I].
      apply (proj2 N) in E. destruct (write_response _ _ _ _ _) as [[[res s'] c''] f']. destruct res; injection H as <- <-; try exact I; exists 0%nat, er; (split; [exact E|exact (parse_refusal cfg _ _ _ _ Ep)]).
Qed.
End End.

(* ---- an example ---- *)
Definition count_requests (w : list call) (r : request) : hprog (list call) :=
  HBody OBytes (fun o => HRet (Some (set_rbody (r_path r) new_response)) (w ++ [CRequest])).
Definition count_errors (w : list call) (r : request) (e : http_error) : hprog (list call) := HRet None (w ++ [CError e]).
Lemma counts : forall CS (cparse : CS -> bytes -> bool -> CS * (bytes * bytes * option cerr)) max, Notices cparse max (fun w => w) count_requests count_errors.
Proof.
  intros CS cparse max. split.
  - intros w r r0 b c resp w' r' b' c'. unfold count_requests. cbn [run_handler]. destruct (body_op _ _ _ _ _) as [[o b1] c1].
    destruct (stops o) as [[|]|]; [discriminate|discriminate|]. cbn [run_handler]. intros H. injection H as _ <- _ _ _. reflexivity.
  - intros w r e r0 b c resp w' r' b' c'. unfold count_errors. cbn [run_handler]. intros H. injection H as _ <- _ _ _. reflexivity.
Qed.
