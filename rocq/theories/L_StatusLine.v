(* Lemmas: exactly when a status line is well-formed. *)
From Verif Require Import M_Base M_Status M_Method M_Proto M_Client M_KeyValue M_Query M_Request M_Parser M_Response
  M_Serializer M_Middleware S_KeyValue S_Chunk S_Response S_Line L_Base L_Tables L_Response L_Response2 L_Response3 L_Framed L_Attach L_ResponseProps.

Theorem line_written_any : forall p r f s c res s' c' f', write_ok c ->
  write_response p r f s c = (res, s', c', f') ->
  exists out more, cl_out c' = cl_out c ++ (s_buff s ++ out) :: more /\ exists rest, out = proto_string p ++ itoa_N (f_code f) ++ [SP] ++ sent_reason f ++ CRLF ++ rest.
Proof.
  intros p r f s c res s' c' f' Hw H. destruct (f_att f) as [a|] eqn:Ha.
  - unfold write_response in H. rewrite Ha in H. unfold send_attachment in H. cbv zeta in H.
    set (f1 := if (0 <? at_size a)%Z then f else set_te (B "chunked") f) in *.
    set (s0 := render_response_line f (render_protocol p s)) in *.
    set (s1 := put CRLF _) in *.
    assert (E : exists t, s_buff s1 = s_buff s0 ++ t).
    { subst s1. rewrite render_headers_text. destruct (0 <? at_size a)%Z; unfold render_content_length, put, set_defaults; cbn [s_buff];
        eexists; rewrite <- ?app_assoc; reflexivity. }
    destruct E as (t & E). rewrite E in H.
    assert (E0 : s_buff s0 = s_buff s ++ proto_string p ++ itoa_N (f_code f) ++ [SP] ++ sent_reason f ++ CRLF).
    { subst s0. rewrite render_line_text. unfold render_protocol. rewrite !put_buff. rewrite <- ?app_assoc. reflexivity. }
    rewrite E0 in H.
    set (out := proto_string p ++ itoa_N (f_code f) ++ [SP] ++ sent_reason f ++ CRLF ++ t).
    assert (Eout : (s_buff s ++ proto_string p ++ itoa_N (f_code f) ++ [SP] ++ sent_reason f ++ CRLF) ++ t = s_buff s ++ out)
      by (subst out; rewrite <- ?app_assoc; reflexivity).
    rewrite Eout in H. destruct (client_write_ok c (s_buff s ++ out) Hw) as (c1 & Ec & Eo & _). rewrite Ec in H. cbn [negb] in H.
    assert (G : forall w m c2 ev2 (c1 : client) mem, (if (0 <? at_size a)%Z then write_plain (at_events a) mem c1 else write_chunked (at_events a) mem c1) = (w, m, c2, ev2) ->
                exists more, cl_out c2 = cl_out c1 ++ more).
    { assert (Wo : forall c d, exists more, cl_out (snd (client_write c d)) = cl_out c ++ more).
      { intros c0 d. unfold client_write. destruct (cl_wres c0) as [|[k|] w]; eexists; reflexivity. }
      intros w m c2 ev2 c0 mem. destruct (0 <? at_size a)%Z.
      - revert w m c2 ev2 c0 mem. generalize (at_events a) as ev. induction ev as [|[d e] ev IH]; intros w m c2 ev2 c0 mem W; cbn [write_plain] in W.
        + injection W as <- <- <- <-. exists []. symmetry. apply app_nil_r.
        + destruct e as [[|]|]; try (injection W as <- <- <- <-; exists []; symmetry; apply app_nil_r).
          destruct (_ <? _)%nat; [injection W as <- <- <- <-; exists []; symmetry; apply app_nil_r|].
          destruct (Wo c0 (firstn (List.length d) (overwrite mem 0 d))) as (m1 & Em1).
          destruct (client_write c0 _) as [ok c3] eqn:Ecw. cbn [snd] in Em1. destruct ok.
          * apply IH in W. destruct W as (m2 & Em2). exists (m1 ++ m2). rewrite Em2, Em1, app_assoc. reflexivity.
          * injection W as <- <- <- <-. exists m1. exact Em1.
      - revert w m c2 ev2 c0 mem. generalize (at_events a) as ev. induction ev as [|[d e] ev IH]; intros w m c2 ev2 c0 mem W; cbn [write_chunked] in W.
        + injection W as <- <- <- <-. exists []. symmetry. apply app_nil_r.
        + assert (Aft : forall mm cc, match e with None => write_chunked ev mm cc
                   | Some REof => let '(ok, c) := client_write cc chunked_finalizer in ((if ok then WOk else WNet), mm, c, ev)
                   | Some RFail => (WClose, mm, cc, ev) end = (w, m, c2, ev2) -> exists more, cl_out c2 = cl_out cc ++ more).
          { intros mm cc X. destruct e as [[|]|].
            - destruct (Wo cc chunked_finalizer) as (m1 & Em1). destruct (client_write cc _) as [ok c3]. injection X as <- <- <- <-. exists m1. exact Em1.
            - injection X as <- <- <- <-. exists []. symmetry. apply app_nil_r.
            - apply IH in X. exact X. }
          destruct (0 <? List.length d)%nat; [|apply Aft in W; exact W].
          destruct (_ <? _)%nat; [injection W as <- <- <- <-; exists []; symmetry; apply app_nil_r|].
          destruct (_ <? _)%nat; [injection W as <- <- <- <-; exists []; symmetry; apply app_nil_r|].
          match type of W with context [client_write c0 ?x] => destruct (Wo c0 x) as (m1 & Em1); destruct (client_write c0 x) as [ok c3] end. cbn [snd] in Em1. destruct ok.
          * apply Aft in W. destruct W as (m2 & Em2). exists (m1 ++ m2). rewrite Em2, Em1, app_assoc. reflexivity.
          * injection W as <- <- <- <-. exists m1. exact Em1. }
    exists out. destruct (method_eqb (r_method r) HEAD).
    + injection H as <- <- <- <-. exists []. split; [exact Eo|]. exists t. reflexivity.
    + match type of H with context [if (0 <? at_size a)%Z then write_plain ?x ?m ?y else write_chunked ?x ?m ?y] =>
        destruct (if (0 <? at_size a)%Z then write_plain x m y else write_chunked x m y) as [[[w m2] c2] ev2] eqn:W end. apply G in W. destruct W as (more & Em). exists more.
      destruct w; injection H as <- <- <- <-; (split; [rewrite Em, Eo, <- app_assoc; reflexivity|exists t; reflexivity]).
  - rewrite plain_write in H by exact Ha. set (out := plain_text_of _ _ _ _) in *.
    destruct (client_write_ok c (s_buff s ++ out) Hw) as (c1 & Ec & Eo & _). rewrite Ec in H. injection H as <- <- <- <-.
    exists out, []. split; [exact Eo|]. subst out. unfold plain_text_of. eexists. rewrite <- ?app_assoc. reflexivity.
Qed.

Lemma until : forall (c : byte) (a b x y : bytes), ~ In c a -> ~ In c b -> a ++ c :: x = b ++ c :: y -> a = b /\ x = y.
Proof.
  intros k. induction a as [|c a IH]; intros b x y Ha Hb E; destruct b as [|d b].
  - injection E as <-. auto.
  - exfalso. injection E as E1 _. apply Hb. left. symmetry. exact E1.
  - exfalso. injection E as E1 _. apply Ha. left. exact E1.
  - injection E as -> E. destruct (IH b x y) as [-> ->]; auto; intros Hi; [apply Ha|apply Hb]; right; exact Hi.
Qed.
Lemma text_clean : forall c, clean (status_text c).
Proof.
  intros c. apply cleanb_ok. unfold status_text. repeat match goal with |- context [match ?x with _ => _ end] => is_var x; destruct x; try reflexivity end.
Qed.
Lemma reason_clean : forall f, clean (sent_reason f).
Proof. intros f. unfold sent_reason. destruct (_ && _); [apply cleanb_ok; reflexivity|apply text_clean]. Qed.
Lemma code_digits : forall c, Forall (fun x => is_digit x = true) (itoa_N c).
Proof. intros c. apply digits_aux_digit. constructor. Qed.
Lemma code_not_in : forall c x, is_digit x = false -> ~ In x (itoa_N c).
Proof. intros c x H Hi. pose proof (code_digits c) as K. rewrite Forall_forall in K. rewrite (K _ Hi) in H. discriminate. Qed.
Lemma code_length : forall c, List.length (itoa_N c) = 3%nat <-> (100 <= c <= 999)%N.
Proof.
  intros c. split; intros H.
  - split; [apply three_digits; exact H|]. pose proof (itoa_N_dec c) as D. destruct (itoa_N c) as [|a [|b [|d [|e l]]]]; try discriminate H. apply (dec_three _ _ _ _ D).
  - destruct (code_three c H) as (a & b & d & -> & _). reflexivity.
Qed.
Lemma phrase_exact : forall f, Phrase (f_code f) (f_status f) (sent_reason f) <->
  match f_status f with [] => f_code f <> 101%N | q => q = status_text (f_code f) end.
Proof.
  intros f. unfold Phrase, sent_reason. destruct (f_status f) as [|x q]; cbn [nonempty negb].
  - rewrite andb_true_r. destruct (f_code f =? 101)%N eqn:E.
    + apply N.eqb_eq in E. rewrite E. split; [|intros H; congruence]. intros H.
      assert (K : In (101%N, B "Switching Protocol") standard_phrases) by (apply H; eexists; right; left; reflexivity).
      exfalso. assert (K2 : existsb (fun e => (fst e =? 101)%N && beqb (snd e) (B "Switching Protocol")) standard_phrases = true)
        by (apply existsb_exists; eexists; split; [exact K|reflexivity]). vm_compute in K2. discriminate.
    + apply N.eqb_neq in E. split; [intros _; exact E|]. intros _ H. apply standard_reason. exact H.
  - rewrite andb_false_r. split; intros H; congruence.
Qed.
Theorem line_exact : forall p r f s c res s' c' f', write_ok c ->
  write_response p r f s c = (res, s', c', f') ->
  exists out more, cl_out c' = cl_out c ++ (s_buff s ++ out) :: more /\
    ((exists line rest, out = line ++ CRLF ++ rest /\ StatusLine (f_code f) (f_status f) line) <->
     p <> PUnknown /\ (100 <= f_code f <= 999)%N /\ match f_status f with [] => f_code f <> 101%N | q => q = status_text (f_code f) end).
Proof.
  intros p r f s c res s' c' f' Hw H. destruct (line_written_any p r f s c res s' c' f' Hw H) as (out & more & E & rest & Eo).
  exists out, more. split; [exact E|]. rewrite <- phrase_exact, <- code_length. split.
  - intros (l & rest' & El & SL). destruct SL as [v ph Hv Hl Hp Hf].
    assert (Lv : ~ In LF v /\ ~ In SP v) by (cbn [In] in Hv; intuition (subst; match goal with X : In _ _ |- _ => vm_compute in X; intuition discriminate end)).
    assert (EE : (v ++ [SP] ++ itoa_N (f_code f) ++ [SP] ++ ph) ++ [CR] = (proto_string p ++ itoa_N (f_code f) ++ [SP] ++ sent_reason f) ++ [CR] /\ rest' = rest).
    { apply (until LF).
      - rewrite !in_app_iff. intros Hi. destruct Lv as [L1 _]. pose proof (code_not_in (f_code f) LF eq_refl) as L2. cbn [In] in Hi. intuition discriminate.
      - rewrite !in_app_iff. intros Hi. pose proof (code_not_in (f_code f) LF eq_refl) as L2. pose proof (proj2 (reason_clean f)) as L3.
        assert (L4 : ~ In LF (proto_string p)) by (destruct p; vm_compute; intuition discriminate). cbn [In] in Hi. intuition discriminate.
      - rewrite El in Eo. unfold CRLF in Eo. rewrite <- !app_assoc in *. cbn [app] in *. exact Eo. }
    destruct EE as [EE _]. apply app_inj_tail in EE. destruct EE as [EE _].
    assert (Np : p <> PUnknown).
    { intros ->. cbn [proto_string app] in EE. pose proof (code_digits (f_code f)) as D. destruct (itoa_N (f_code f)) as [|x l]; [discriminate Hl|].
      inversion D as [|? ? D1 _]; subst. cbn [In] in Hv. destruct Hv as [<-|[<-|[<-|[]]]]; injection EE as EE _; subst x; discriminate D1. }
    split; [exact Np|]. split; [exact Hl|].
    rewrite (proto_version p Np) in EE. rewrite <- !app_assoc in EE. cbn [app] in EE.
    apply until in EE; [|exact (proj2 Lv)|destruct p; vm_compute; intuition discriminate]. destruct EE as [_ EE].
    apply app_inv_head in EE. injection EE as <-. exact Hp.
  - intros (Np & Hl & Hp). exists (version_of p ++ [SP] ++ itoa_N (f_code f) ++ [SP] ++ sent_reason f), rest. split.
    + rewrite Eo, (proto_version p Np). rewrite <- !app_assoc. reflexivity.
    + constructor; [destruct p; cbn; tauto|exact Hl|exact Hp|exact (proj2 (reason_clean f))].
Qed.
