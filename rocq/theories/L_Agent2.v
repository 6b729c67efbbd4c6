(* Lemmas: the Set-Cookie lines of a response. *)
From Coq Require Import List Lia ZArith Permutation.
From Verif Require Import M_Base M_KeyValue M_Response M_Time M_CookieJar S_KeyValue S_Response S_Values S_Agent L_Base L_Time L_Time2
  L_Response2 L_Response3 L_ResponseProps L_Values L_Agent.
Import ListNotations.
Open Scope Z_scope.

Definition good_end (l : bytes) : Prop := match rev l with x :: _ => is_ows x = false | [] => False end.
Lemma ltrim_head : forall l x m, ltrim l = x :: m -> is_ows x = false.
Proof. induction l as [|y l IH]; intros x m H; [discriminate|]. cbn [ltrim] in H. destruct (is_ows y) eqn:E; [apply (IH x m H)|]. injection H as <- _. exact E. Qed.
Lemma plain_end : forall v, trim v = v -> v <> [] -> good_end v.
Proof.
  intros v H Hn. unfold good_end. destruct (rev v) as [|x m] eqn:E; [apply Hn; rewrite <- (rev_involutive v), E; reflexivity|].
  unfold trim in H. rewrite <- H, rev_involutive in E. apply (ltrim_head _ _ _ E).
Qed.
Lemma plain_head : forall v, trim v = v -> match v with x :: _ => is_ows x = false | [] => True end.
Proof.
  intros [|x v] H; [exact I|]. destruct (is_ows x) eqn:E; [|reflexivity]. exfalso. unfold trim in H. cbn [ltrim] in H. rewrite E in H.
  apply (f_equal (@List.length byte)) in H. rewrite rev_length in H. pose proof (ltrim_length (rev (ltrim v))) as A. rewrite rev_length in A. pose proof (ltrim_length v). cbn [List.length] in H. lia.
Qed.
Lemma end_app : forall a b, good_end b -> good_end (a ++ b).
Proof. intros a b H. unfold good_end in *. rewrite rev_app_distr. destruct (rev b) as [|x m]; [destruct H|exact H]. Qed.
Lemma join_end : forall sep l, l <> [] -> Forall good_end l -> good_end (join sep l).
Proof.
  intros sep l. induction l as [|x l IH]; intros Hn HF; [destruct (Hn eq_refl)|]. inversion HF; subst. destruct l as [|y l]; [assumption|].
  change (join sep (x :: y :: l)) with (x ++ sep ++ join sep (y :: l)). apply end_app, end_app. apply IH; [discriminate|assumption].
Qed.
Lemma eq_end : forall k v, trim v = v -> good_end (k ++ B "=" ++ v).
Proof.
  intros k v H. destruct v as [|x v].
  - apply end_app. reflexivity.
  - apply end_app, end_app. apply plain_end; [exact H|discriminate].
Qed.
Lemma attribute_ends : forall b k v, trim v = v -> Forall good_end (map attribute_text (opt b (k, Some v))).
Proof. intros b k v H. destruct b; [constructor; [apply eq_end; exact H|constructor]|constructor]. Qed.
Lemma flag_ends : forall b k, good_end k -> Forall good_end (map attribute_text (opt b (k, None))).
Proof. intros b k H. destruct b; [constructor; [exact H|constructor]|constructor]. Qed.
Lemma line_trimmed : forall c, PlainCookie c -> ck_name c <> [] -> trim (set_cookie_text (B "MaxAge") c) = set_cookie_text (B "MaxAge") c.
Proof.
  intros c (P1 & P2 & P3 & P4 & P5 & P6 & P7) Hn. apply trim_ends.
  - unfold set_cookie_text. destruct (ck_name c) as [|x n] eqn:E; [destruct (Hn eq_refl)|]. pose proof (plain_head _ (proj2 P1)) as H.
    cbn [map app join]. destruct (map attribute_text _); exact H.
  - fold (good_end (set_cookie_text (B "MaxAge") c)). unfold set_cookie_text. apply join_end; [discriminate|]. constructor; [apply eq_end; apply P3|].
    rewrite attributes_opt, !map_app, !Forall_app.
    repeat split; try (apply attribute_ends; first [apply P4|apply P5|apply P6|apply P7|unfold itoa; destruct (Z.ltb_spec (Z.max 0 (ck_maxage c)) 0); [lia|apply trim_itoa]]); apply flag_ends; reflexivity.
Qed.
Theorem lines_sent : forall host defs past f, Forall (fun e => ~ same_key (fst e) (B "Set-Cookie")) (f_headers f ++ defs) ->
  Forall (fun c => exists t, Settable host c t) (f_cookies f) ->
  all_values (map trimmed (sent_fields defs past f)) (B "Set-Cookie") = map (set_cookie_text (B "MaxAge")) (f_cookies f).
Proof.
  intros host defs past f HH HC. apply Forall_app in HH. destruct HH as [Hh Hd]. unfold sent_fields. rewrite !map_app, !all_values_app.
  assert (K1 : all_values (map trimmed (f_headers f)) (B "Set-Cookie") = []) by (apply all_values_trimmed_absent; exact Hh).
  assert (K2 : all_values (map trimmed (remaining (past ++ names f) defs)) (B "Set-Cookie") = []).
  { apply all_values_trimmed_absent. apply Forall_forall. intros e He. apply filter_In in He. rewrite Forall_forall in Hd. apply Hd. apply He. }
  unfold entry in *. rewrite K1, K2. cbn [app].
  change (all_values (map trimmed [(B "Content-Type", f_ctype f)]) (B "Set-Cookie")) with (@nil bytes).
  change (all_values (map trimmed [(B "Content-Length", itoa (len (f_body f)))]) (B "Set-Cookie")) with (@nil bytes).
  match goal with |- [] ++ ?x ++ ?y ++ [] = _ => assert (K4 : x = []) by (destruct (f_te f); reflexivity) end.
  cbn [app] in *. rewrite K4, app_nil_r. cbn [app]. clear - HC. induction HC as [|c cs (t & Hc) HC IH]; [reflexivity|].
  unfold all_values in *. cbn [map trimmed filter fst snd]. change (same_keyb (B "Set-Cookie") (B "Set-Cookie")) with true. cbn iota. cbn [map snd]. f_equal; [|exact IH].
  apply line_trimmed; [apply (settable_plain host c t Hc)|]. apply Hc.
Qed.
