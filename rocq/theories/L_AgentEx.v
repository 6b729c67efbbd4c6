(* Short proofs and witnesses behind P_Agent.v. *)
From Coq Require Import List Lia ZArith Permutation.
From Verif Require Import M_Base M_KeyValue M_Response M_Time M_CookieJar S_KeyValue S_Response S_Values S_Agent L_Base L_Time L_Time2 L_Time3
  L_Response2 L_Response3 L_ResponseProps L_Values L_Agent L_Agent2.
Import ListNotations.
Open Scope Z_scope.

Definition no_time : gtime := GTime (-62135596800) 0.
Definition ex_time : gtime := GTime 1700000000 0.
Definition basket : cookie := Cookie (B "basket") (B "3 apples") (B "/shop") (B "Example.org") (expires_of ex_time) 0 (B "Lax") true false.
Definition sid : cookie := cookie_new (B "id") (B "a").
Definition sid_upper : cookie := cookie_new (B "ID") (B "b").
Definition sid_gone : cookie := cookie_set_maxage (-1) (cookie_new (B "id") []).
Definition sid_hour : cookie := cookie_set_maxage 3600 (cookie_new (B "id") (B "a")).
Definition www : bytes := B "www.example.org".

Ltac plains := repeat (split; [plain|]).
Lemma new_settable : forall host n v a, plain_text n -> ~ In x3d n -> n <> [] -> plain_text v -> Settable host (cookie_set_maxage a (cookie_new n v)) no_time.
Proof.
  intros host n v a H1 H2 H3 H4. unfold Settable, cookie_set_maxage, cookie_new.
  cbn [ck_name ck_value ck_samesite ck_path ck_domain ck_expires]. repeat (split; [first [assumption|plain|left; reflexivity|discriminate|reflexivity]|]). left. reflexivity.
Qed.
Lemma sid_settable : forall host a, Settable host (cookie_set_maxage a (cookie_new (B "id") [])) no_time.
Proof. intros host a. apply new_settable; [plain|apply not_in_dec; reflexivity|discriminate|plain]. Qed.
Lemma basket_settable : Settable www basket ex_time.
Proof.
  unfold Settable. split; [plain|]. split; [apply not_in_dec; reflexivity|]. split; [discriminate|]. split; [plain|]. split; [plain|]. split; [plain|].
  split; [right; eexists; reflexivity|]. split; [plain|]. split; [discriminate|]. split; [right; vm_compute; reflexivity|]. split; [reflexivity|].
  right. cbn. lia.
Qed.
Lemma gone_stays : exists c, ck_maxage c = -1 /\ (forall host, Settable host c no_time) /\
  (forall now dp t later, alive later (meant now dp c t) = false) /\
  forall now host dp, (exists s, Reads now host dp (set_cookie_text (B "MaxAge") c) s) /\
    forall s, Reads now host dp (set_cookie_text (B "MaxAge") c) s -> forall later, alive later s = true.
Proof.
  exists sid_gone. split; [reflexivity|]. split; [intros host; apply (sid_settable host (-1))|]. split; [reflexivity|].
  intros now host dp. pose proof (fun s => settable_read now host dp sid_gone no_time s (sid_settable host (-1))) as H. split.
  - eexists. apply H. reflexivity.
  - intros s Hs later. apply H in Hs. subst s. reflexivity.
Qed.
Lemma hour_lasts : exists c, ck_maxage c = 3600 /\ (forall host, Settable host c no_time) /\
  forall now host dp s, Reads now host dp (set_cookie_text (B "MaxAge") c) s -> sd_life s = Session.
Proof.
  exists sid_hour. assert (HS : forall host, Settable host sid_hour no_time).
  { intros host. apply (new_settable host (B "id") (B "a") 3600); [plain|apply not_in_dec; reflexivity|discriminate|plain]. }
  split; [reflexivity|]. split; [exact HS|]. intros now host dp s H.
  apply (settable_read now host dp sid_hour no_time s (HS host)) in H. subst s. reflexivity.
Qed.
Lemma sids_settable : forall host, Forall (fun ct => Settable host (fst ct) (snd ct) /\ ck_maxage (fst ct) = 0) [(sid, no_time); (sid_upper, no_time)].
Proof.
  intros host. constructor; [|constructor; [|constructor]]; (split; [|reflexivity]); cbn [fst snd].
  - apply (new_settable host (B "id") (B "a") 0); [plain|apply not_in_dec; reflexivity|discriminate|plain].
  - apply (new_settable host (B "ID") (B "b") 0); [plain|apply not_in_dec; reflexivity|discriminate|plain].
Qed.
Lemma names_mixed : exists cts sent, (forall host, Forall (fun ct => Settable host (fst ct) (snd ct) /\ ck_maxage (fst ct) = 0) cts) /\
  (forall now host dp j, Receives now host dp (map (fun ct => set_cookie_text (B "MaxAge") (fst ct)) cts) [] j ->
     forall later, Sends later host dp false j sent) /\
  In (B "ID", B "b") sent /\
  forall s, kv_pairs s = [(B "Cookie", cookie_text sent)] -> request_cookies s = Some sent /\ pairs_get sent (B "ID") = Some (B "a").
Proof.
  exists [(sid, no_time); (sid_upper, no_time)], [(B "id", B "a"); (B "ID", B "b")]. split; [apply sids_settable|]. split.
  - intros now host dp j H. apply (received now host dp _ _ _ (sids_settable host)) in H. subst j. intros later. unfold Sends.
    assert (P : path_match dp dp = true) by (unfold path_match; rewrite (proj2 (bytes_eqb_iff dp dp) eq_refl); reflexivity).
    unfold kept_after. cbn [fold_left fst snd]. unfold meant, sid, sid_upper, cookie_new. cbn [ck_name ck_value ck_domain ck_path ck_maxage ck_secure ck_httponly map].
    change (when no_time) with (@None Z). cbn [keep]. unfold same_cookie. cbn [sd_name]. change (beqb (B "id") (B "ID")) with false. cbn [andb].
    unfold goes, alive. cbn -[path_match]. rewrite P. apply Permutation_refl.
  - split; [right; left; reflexivity|]. intros s Hs. split; [|reflexivity]. destruct s as [ps us vs]. cbn [kv_pairs] in Hs. subst ps. vm_compute. reflexivity.
Qed.
(* ---- dates ---- *)
Lemma year_fifty : exists t z, is_zero t = false /\ rfc1123 t = B "Sat, 01 Jan 0050 00:00:00 GMT" /\ NamesInstant (rfc1123 t) z /\ t_unix t < 0 /\ 0 < z.
Proof.
  exists (GTime (-60589296000) 0), (86400 * 29220 + 3600 * 0 + 60 * 0 + 0). split; [reflexivity|].
  assert (E : rfc1123 (GTime (-60589296000) 0) = B "Sat, 01 Jan 0050 00:00:00 GMT") by (vm_compute; reflexivity). split; [exact E|]. rewrite E. split.
  - apply (Names_instant _ 0 0 0 1 1 50 29220); [vm_compute; reflexivity|vm_compute; discriminate..|].
    pose proof (go_on_day (epoch + 29220)) as H. replace (epoch + 29220 - epoch) with 29220 in H by lia.
    replace (go_date (epoch + 29220)) with (Date (full_year 50) 1 1) in H by (vm_compute; reflexivity). exact H.
  - cbn. lia.
Qed.
Lemma year_myriad : exists t, is_zero t = false /\ rfc1123 t = B "Sat, 01 Jan 10000 00:00:00 GMT" /\ forall z, ~ NamesInstant (rfc1123 t) z.
Proof.
  exists (GTime 253402300800 0). split; [reflexivity|].
  assert (E : rfc1123 (GTime 253402300800 0) = B "Sat, 01 Jan 10000 00:00:00 GMT") by (vm_compute; reflexivity). split; [exact E|]. rewrite E.
  intros z N. inversion N as [h m x d mo y n N1]. vm_compute in N1. discriminate N1.
Qed.
