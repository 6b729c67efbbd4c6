(* Lemmas: the parser and its request object under any bytes. *)
From Verif Require Import M_Base M_Status M_Method M_Proto M_Uri M_KeyValue M_Query M_Request M_Parser M_Client M_Body
  M_Response M_Serializer M_Suit S_KeyValue S_Chunk S_Head S_Parser S_Body S_Response S_Split S_Verdict S_Arrive S_Conn S_Upgrade S_Talk
  L_Base.

Section Inv.
Variable cfg : hcfg.
Variables umax kmax vmax : Z.
Definition sound (p : parser) : Prop :=
  b_max (p_start p) = umax /\ b_max (p_key p) = kmax /\ b_max (p_val p) = vmax /\ QueryFresh (r_query (p_req p)).
Definition fine (r : pres) : Prop :=
  match r with
  | RPending p => sound p
  | RDone p _ => Ready umax kmax vmax p /\ QueryFresh (r_query (p_req p))
  | _ => True
  end.
Definition fine_jump (j : jump) : Prop := match j with Goto _ p _ => sound p | Ret r => fine r end.

Lemma append_max : forall b d b', buf_append b d = Some b' -> b_max b' = b_max b.
Proof. intros b d b'. unfold buf_append. destruct (_ >? _)%Z; [discriminate|]. intros H; injection H as <-. reflexivity. Qed.
Lemma set_fresh : forall q t, QueryFresh q -> QueryFresh (query_set q t).
Proof. intros q t H. unfold query_set. destruct (q_parsed q) eqn:E; intros _; [reflexivity|exact (H E)]. Qed.
Lemma finish_max : forall b x b', buf_finish b = (x, b') -> b_max b' = b_max b.
Proof. intros b x b'. unfold buf_finish. intros H; injection H as _ <-. reflexivity. Qed.
Lemma cleanup_fine : forall p d, sound p -> fine (RDone (cleanup p) d).
Proof. intros p d (S1 & S2 & S3 & S4). split; [|exact S4]. unfold Ready. destruct p. cbn in *. subst. repeat split. Qed.
Lemma header_query : forall k v r, r_query (apply_header cfg k v r) = r_query r.
Proof.
  intros k v r. unfold apply_header. repeat match goal with
  | |- context [match ?x with _ => _ end] => lazymatch x with context [match _ with _ => _ end] => fail | _ => destruct x end
  | |- context [if ?x then _ else _] => destruct x
  end; reflexivity.
Qed.
Lemma line_fine : forall p line, sound p -> match request_line p line with inl r => fine r | inr p' => sound p' end.
Proof.
  intros p line (S1 & S2 & S3 & S4). unfold request_line. destruct (cut_last line SP) as [[a b]|]; [|exact I].
  destruct (last_byte b) as [c|]; [|exact I].
  assert (G : forall pa p', sound p' -> match (match pa with [] => inl (RErr p' ErrBadRequest) | _ => match uri_decode pa with None => inl (RErr p' ErrURIDecoding)
     | Some path => let pr := proto_from_bytes (if Byte.eqb c CR then drop_last b else b) in let p2 := set_p_req (set_proto pr (set_path path (p_req p'))) p' in
       match pr with PUnknown => inl (RErr p2 ErrUnsupportedProtocol) | _ => inr p2 end end end) with inl r => fine r | inr p2 => sound p2 end).
  { intros pa p' Hp. destruct pa; [exact I|]. destruct (uri_decode _); [|exact I]. cbv zeta. destruct (proto_from_bytes _); try exact I; exact Hp. }
  cbv zeta. destruct (cut a x3f) as [[pa q]|].
  - apply G. repeat split; try assumption. apply set_fresh. exact S4.
  - apply G. repeat split; assumption.
Qed.
Lemma step_fine : forall l p d, sound p -> fine_jump (step cfg l p d).
Proof.
  intros l p d S. pose proof S as (S1 & S2 & S3 & S4). destruct l; cbn [step].
  - unfold step_method. destruct (cut d SP) as [[m rest]|].
    + assert (C : forall p mv, sound p -> fine_jump match mv with [] => Ret (RErr p ErrBadRequest) | _ => let mm := method_parse mv in let p := set_p_req (set_method mm (p_req p)) p in
        match mm with MUnknown => Ret (RErr p ErrMethodNotImplemented) | _ => Goto ePath p rest end end).
      { intros p0 mv Hp. destruct mv; [exact I|]. cbv zeta. destruct (method_parse _); try exact I; exact Hp. }
      cbv zeta. destruct (buf_seglen (p_start p) =? 0)%Z; [apply C; exact S|]. destruct (buf_append (p_start p) m) as [b|] eqn:A; [|exact I].
      destruct (buf_finish b) as [mv b'] eqn:Fb. apply C. apply append_max in A. apply finish_max in Fb. repeat split; cbn; congruence || assumption.
    + destruct (buf_append (p_start p) d) as [b|] eqn:A; [|exact I]. apply append_max in A. repeat split; cbn; congruence || assumption.
  - unfold step_path. destruct (cut d LF) as [[m rest]|].
    + destruct (buf_append (p_start p) m) as [b|] eqn:A; [|exact I]. destruct (buf_finish b) as [mv b'] eqn:Fb. apply append_max in A. apply finish_max in Fb.
      assert (S' : sound (set_p_start b' p)) by (repeat split; cbn; congruence || assumption).
      pose proof (line_fine _ mv S') as L. destruct (request_line _ _); exact L.
    + destruct (buf_append (p_start p) d) as [b|] eqn:A; [|exact I]. apply append_max in A. repeat split; cbn; congruence || assumption.
  - unfold step_header_key. destruct d as [|c d']; [exact S|]. destruct (Byte.eqb c LF); [apply cleanup_fine; exact S|]. destruct (Byte.eqb c CR); [exact S|].
    destruct (cut (c :: d') x3a) as [[k rest]|].
    + destruct (buf_append (p_key p) k) as [b|] eqn:A; [|exact I]. destruct (buf_finish b) as [mv b'] eqn:Fb. apply append_max in A. apply finish_max in Fb.
      cbv zeta. destruct (_ >? _)%Z; [exact I|]. destruct (key_is _ _); (repeat split; cbn; congruence || assumption).
    + destruct (buf_append (p_key p) (c :: d')) as [b|] eqn:A; [|exact I]. apply append_max in A. repeat split; cbn; congruence || assumption.
  - unfold step_content_length. destruct (clen_loop (p_clen p) d) as [n [[|c r]|]]; [exact I| |repeat split; assumption].
    cbv zeta. destruct (Byte.eqb c CR); [|destruct (Byte.eqb c LF); [|exact I]]; (repeat split; assumption).
  - unfold step_content_length_cr. destruct d as [|c d']; [exact S|]. destruct (Byte.eqb c LF); [exact S|exact I].
  - unfold step_header_value. destruct (cut d LF) as [[m rest]|].
    + destruct (buf_append (p_val p) m) as [b|] eqn:A; [|exact I]. apply append_max in A. destruct (_ >? _)%Z; [exact I|].
      destruct (buf_finish b) as [mv b'] eqn:Fb. apply finish_max in Fb. cbv zeta. destruct (last_byte _); [|exact I].
      repeat split; cbn [p_start p_key p_val p_req set_p_req set_p_val]; try congruence; try assumption. rewrite header_query. exact S4.
    + destruct (buf_append (p_val p) d) as [b|] eqn:A; [|exact I]. apply append_max in A. destruct (_ >? _)%Z; [exact I|].
      repeat split; cbn; congruence || assumption.
  - unfold step_crlfcr. destruct d as [|c d']; [exact S|]. destruct (Byte.eqb c LF); [apply cleanup_fine; exact S|exact I].
Qed.
Lemma run_fine : forall n l p d, sound p -> fine (run cfg n l p d).
Proof.
  induction n as [|n IH]; intros l p d S; [exact I|]. cbn [run]. pose proof (step_fine l p d S) as F. destruct (step cfg l p d); [apply IH; exact F|exact F].
Qed.
Lemma feed_fine : forall reads p, sound p -> fine (fst (feed cfg p reads)).
Proof.
  induction reads as [|d reads IH]; intros p Hs; [exact Hs|]. cbn [feed]. pose proof (run_fine (S (List.length d)) (p_state p) p d Hs) as F. unfold parse.
  destruct (run _ _ _ _ _); try exact F. apply IH. exact F.
Qed.
Lemma ready_sound : forall p, Ready umax kmax vmax p -> QueryFresh (r_query (p_req p)) -> sound p.
Proof. intros p (_ & R1 & R2 & R3 & _) Q. unfold sound. rewrite R1, R2, R3. auto. Qed.
Lemma done_ready : forall p reads q extra rs, Ready umax kmax vmax p -> QueryFresh (r_query (p_req p)) -> feed cfg p reads = (RDone q extra, rs) ->
  Ready umax kmax vmax q /\ QueryFresh (r_query (p_req q)).
Proof. intros p reads q extra rs R Q E. pose proof (feed_fine reads p (ready_sound p R Q)) as F. rewrite E in F. exact F. Qed.
End Inv.
