(* Lemmas about the response builder. *)
From Verif Require Import M_Base M_Status M_KeyValue M_Response S_KeyValue S_Builder L_Base L_KeyValue.

Lemma last_app : forall A (l m : list A) d, last (l ++ m) d = last m (last l d).
Proof.
  intros A l m d. revert l. induction m as [|x m IH] using rev_ind; intros l; [rewrite app_nil_r; reflexivity|].
  rewrite app_assoc, !last_last. reflexivity.
Qed.
Lemma last_given_snoc : forall A (given : rop -> list A) d os o, last_given given d (os ++ [o]) = last (given o) (last_given given d os).
Proof. intros A given d os o. unfold last_given. rewrite flat_map_app, last_app. cbn [flat_map]. rewrite app_nil_r. reflexivity. Qed.
Lemma flat_snoc : forall A (given : rop -> list A) os o, flat_map given (os ++ [o]) = flat_map given os ++ given o.
Proof. intros A given os o. rewrite flat_map_app. cbn [flat_map]. rewrite app_nil_r. reflexivity. Qed.
Lemma body_same : forall os o b, BodyIs os b -> replaces_body o = None -> (forall d, o <> RWrite d) -> BodyIs (os ++ [o]) b.
Proof.
  intros os o b H Hr Hw.
  assert (E : forall ws, concat (map (fun o => match o with RWrite b => b | _ => [] end) (ws ++ [o])) = concat (map (fun o => match o with RWrite b => b | _ => [] end) ws)).
  { intros ws. rewrite map_app, concat_app. cbn [map concat]. destruct o; rewrite ?app_nil_r; try reflexivity. exfalso. eapply Hw. reflexivity. }
  destruct H as [ws Hf|os o' b ws Ho Hf].
  - rewrite <- E. apply Bo_start. apply Forall_app. split; [exact Hf|]. constructor; [exact Hr|constructor].
  - rewrite <- E. rewrite <- app_assoc. cbn [app]. apply Bo_from; [exact Ho|]. apply Forall_app. split; [exact Hf|]. constructor; [exact Hr|constructor].
Qed.
Lemma body_replaced : forall os o b, replaces_body o = Some b -> BodyIs (os ++ [o]) b.
Proof. intros os o b H. pose proof (Bo_from os o b [] H (Forall_nil _)) as K. cbn [map concat] in K. rewrite app_nil_r in K. exact K. Qed.
Lemma body_written : forall os d b, BodyIs os b -> BodyIs (os ++ [RWrite d]) (b ++ d).
Proof.
  intros os d b H.
  assert (E : forall ws, concat (map (fun o => match o with RWrite b => b | _ => [] end) (ws ++ [RWrite d])) = concat (map (fun o => match o with RWrite b => b | _ => [] end) ws) ++ d).
  { intros ws. rewrite map_app, concat_app. cbn [map concat]. rewrite app_nil_r. reflexivity. }
  destruct H as [ws Hf|os o' b ws Ho Hf].
  - rewrite <- E. apply Bo_start. apply Forall_app. split; [exact Hf|]. constructor; [reflexivity|constructor].
  - rewrite <- (app_assoc b), <- E, <- app_assoc. cbn [app]. apply Bo_from; [exact Ho|]. apply Forall_app. split; [exact Hf|]. constructor; [reflexivity|constructor].
Qed.

(* header calls one by one *)
Definition ct (k : bytes) := same_keyb k (B "content-type").
Definition te (k : bytes) := same_keyb k (B "transfer-encoding").
Lemma header_result : forall k vs f g, resp_header k vs f = Some g ->
  g = Fields (f_code f) (f_status f) (last (if ct k then firstn 1 vs else []) (f_ctype f)) (last (if te k then firstn 1 vs else []) (f_te f))
        (f_headers f ++ if ct k || te k then [] else map (fun v => (k, v)) vs) (f_body f) (f_cookies f) (f_att f).
Proof.
  intros k vs f g. unfold resp_header, ct, te. rewrite !same_keyb_fold.
  destruct (equal_fold k (B "content-type")) eqn:E1.
  - assert (E2 : equal_fold k (B "transfer-encoding") = false).
    { destruct (equal_fold k (B "transfer-encoding")) eqn:E2; [|reflexivity]. apply equal_fold_eq in E1. apply equal_fold_eq in E2. rewrite E1 in E2. discriminate. }
    rewrite E2. destruct vs as [|v vs]; [discriminate|]. intros H. injection H as <-. cbn [firstn last orb]. rewrite app_nil_r. reflexivity.
  - destruct (equal_fold k (B "transfer-encoding")) eqn:E2.
    + destruct vs as [|v vs]; [discriminate|]. intros H. injection H as <-. cbn [firstn last orb]. rewrite app_nil_r. reflexivity.
    + intros H. injection H as <-. reflexivity.
Qed.
Lemma headers_result : forall hs f g, resp_headers hs f = Some g ->
  g = Fields (f_code f) (f_status f) (last (flat_map (fun h => if ct (fst h) then firstn 1 (snd h) else []) hs) (f_ctype f))
        (last (flat_map (fun h => if te (fst h) then firstn 1 (snd h) else []) hs) (f_te f))
        (f_headers f ++ flat_map (fun h => if ct (fst h) || te (fst h) then [] else map (fun v => (fst h, v)) (snd h)) hs) (f_body f) (f_cookies f) (f_att f).
Proof.
  induction hs as [|[k vs] hs IH]; intros f g H; cbn [resp_headers] in H.
  - injection H as <-. cbn. rewrite app_nil_r. destruct f; reflexivity.
  - destruct (resp_header k vs f) as [f1|] eqn:E; [|discriminate]. apply header_result in E. apply IH in H. subst f1. cbn [f_code f_status f_ctype f_te f_headers f_body f_cookies f_att] in H.
    rewrite H. cbn [flat_map fst snd]. rewrite !last_app, <- app_assoc. reflexivity.
Qed.
Lemma writes_body : forall ps f, fold_left (fun g b => resp_write b g) ps f = set_rbody (f_body f ++ concat ps) f.
Proof.
  induction ps as [|p ps IH]; intros f; cbn [fold_left concat]; [rewrite app_nil_r; destruct f; reflexivity|].
  rewrite IH. unfold resp_write, set_rbody. cbn [f_code f_status f_ctype f_te f_headers f_body f_cookies f_att]. rewrite app_assoc. reflexivity.
Qed.
Lemma new_stands : Stands [] new_response.
Proof. constructor; try reflexivity. apply (Bo_start []). constructor. Qed.
Ltac fin H := constructor; rewrite ?last_given_snoc, ?flat_snoc, ?(st_code _ _ H), ?(st_status _ _ H), ?(st_ctype _ _ H), ?(st_te _ _ H), ?(st_headers _ _ H), ?(st_cookies _ _ H), ?(st_att _ _ H).
Lemma call_stands : forall os f o g, Stands os f -> resp_op o f = Some g -> (o = RClear /\ Stands [] g) \/ (o <> RClear /\ Stands (os ++ [o]) g).
Proof.
  intros os f o g H E. destruct o as [c|s|t|t|k vs|hs|b|b|p r|a|cs|ps e|e cs|].
  14:{ left. split; [reflexivity|]. injection E as <-. exact new_stands. }
  all: right; split; [discriminate|].
  - injection E as <-. constructor; rewrite ?last_given_snoc, ?flat_snoc; cbn; rewrite ?app_nil_r; try apply H; try reflexivity. apply body_same; [apply H|reflexivity|discriminate].
  - injection E as <-. constructor; rewrite ?last_given_snoc, ?flat_snoc; cbn; rewrite ?app_nil_r; try apply H; try reflexivity. apply body_same; [apply H|reflexivity|discriminate].
  - injection E as <-. constructor; rewrite ?last_given_snoc, ?flat_snoc; cbn; rewrite ?app_nil_r; try apply H; try reflexivity. apply body_same; [apply H|reflexivity|discriminate].
  - injection E as <-. constructor; rewrite ?last_given_snoc, ?flat_snoc; cbn; rewrite ?app_nil_r; try apply H; try reflexivity. apply body_same; [apply H|reflexivity|discriminate].
  - assert (E' : resp_headers [(k, vs)] f = Some g) by (cbn [resp_headers]; cbn [resp_op] in E; rewrite E; reflexivity).
    apply headers_result in E'. subst g. constructor; cbn [f_code f_status f_ctype f_te f_headers f_body f_cookies f_att]; rewrite ?last_given_snoc, ?flat_snoc; try apply H.
    + rewrite (st_ctype _ _ H). reflexivity.
    + rewrite (st_te _ _ H). reflexivity.
    + rewrite (st_headers _ _ H). reflexivity.
    + apply body_same; [apply H|reflexivity|discriminate].
    + cbn. rewrite app_nil_r. apply H.
  - cbn [resp_op] in E. apply headers_result in E. subst g. constructor; cbn [f_code f_status f_ctype f_te f_headers f_body f_cookies f_att]; rewrite ?last_given_snoc, ?flat_snoc; try apply H.
    + rewrite (st_ctype _ _ H). reflexivity.
    + rewrite (st_te _ _ H). reflexivity.
    + rewrite (st_headers _ _ H). reflexivity.
    + apply body_same; [apply H|reflexivity|discriminate].
    + cbn. rewrite app_nil_r. apply H.
  - injection E as <-. constructor; rewrite ?last_given_snoc, ?flat_snoc; cbn; rewrite ?app_nil_r; try apply H; try reflexivity. apply body_replaced. reflexivity.
  - injection E as <-. constructor; rewrite ?last_given_snoc, ?flat_snoc; cbn; rewrite ?app_nil_r; try apply H; try reflexivity. apply body_written. apply H.
  - injection E as <-. destruct r as [| | |ev size].
    4:{ unfold resp_file, resp_try_file. constructor; rewrite ?last_given_snoc, ?flat_snoc;
        cbn [set_att set_ctype f_code f_status f_ctype f_te f_headers f_body f_cookies f_att gives_code gives_status gives_ctype gives_te gives_headers gives_cookies gives_att values_for header_calls flat_map last];
        rewrite ?app_nil_r; try apply H; try reflexivity.
        - unfold file_type. destruct (mime_extension (file_ext p)); reflexivity.
        - apply body_same; [apply H|reflexivity|discriminate]. }
    all: constructor; rewrite ?last_given_snoc, ?flat_snoc; cbn; rewrite ?app_nil_r; try apply H; try reflexivity; apply body_same; try apply H; try reflexivity; discriminate.
  - injection E as <-. constructor; rewrite ?last_given_snoc, ?flat_snoc; cbn; rewrite ?app_nil_r; try apply H; try reflexivity. apply body_same; [apply H|reflexivity|discriminate].
  - injection E as <-. constructor; rewrite ?last_given_snoc, ?flat_snoc; cbn; rewrite ?app_nil_r; try apply H; try reflexivity.
    + apply body_same; [apply H|reflexivity|discriminate].
    + rewrite (st_cookies _ _ H). reflexivity.
  - injection E as <-. unfold resp_json, resp_try_json. rewrite writes_body.
    destruct e as [[h| |m]|]; constructor; rewrite ?last_given_snoc, ?flat_snoc;
      cbn [set_att set_ctype set_code set_rbody resp_error f_code f_status f_ctype f_te f_headers f_body f_cookies f_att gives_code gives_status gives_ctype gives_te gives_headers gives_cookies gives_att values_for header_calls flat_map last error_code];
      rewrite ?app_nil_r; try reflexivity; try apply H; apply body_replaced; reflexivity.
  - injection E as <-.
    destruct e as [[h| |m]|]; constructor; rewrite ?last_given_snoc, ?flat_snoc;
      cbn [set_att set_ctype set_code set_rbody resp_error f_code f_status f_ctype f_te f_headers f_body f_cookies f_att gives_code gives_status gives_ctype gives_te gives_headers gives_cookies gives_att values_for header_calls flat_map last error_code];
      rewrite ?app_nil_r; try reflexivity; try apply H; try (destruct cs; reflexivity);
      first [apply body_replaced; reflexivity|apply body_same; [apply H|reflexivity|discriminate]].
Qed.
Lemma calls_stand : forall os acc f g, Stands acc f -> resp_ops os f = Some g -> Stands (fresh_calls os acc) g.
Proof.
  induction os as [|o os IH]; intros acc f g H E; cbn [resp_ops] in E; [injection E as <-; exact H|].
  destruct (resp_op o f) as [f1|] eqn:E1; [|discriminate]. destruct (call_stands acc f o f1 H E1) as [[ -> H1]|[Hn H1]].
  - cbn [fresh_calls]. exact (IH _ _ _ H1 E).
  - assert (F : fresh_calls (o :: os) acc = fresh_calls os (acc ++ [o])) by (destruct o; try reflexivity; contradiction). rewrite F. exact (IH _ _ _ H1 E).
Qed.
Theorem builder_stands : forall os f, resp_ops os new_response = Some f -> Stands (fresh_calls os []) f.
Proof. intros os f H. exact (calls_stand os [] _ _ new_stands H). Qed.
Lemma header_panics : forall k vs f, resp_header k vs f = None <-> vs = [] /\ (same_key k (B "content-type") \/ same_key k (B "transfer-encoding")).
Proof.
  intros k vs f. unfold resp_header. rewrite !same_key_fold, (equal_fold_sym (B "content-type")), (equal_fold_sym (B "transfer-encoding")).
  destruct (equal_fold k (B "content-type")); [|destruct (equal_fold k (B "transfer-encoding"))]; destruct vs; split; intros H; try discriminate; try (destruct H as [? [?|?]]; discriminate); auto; try (destruct H; discriminate).
Qed.
Theorem builder_panics : forall os f, resp_ops os f = None <-> exists o, In o os /\ ~ GivesValue o.
Proof.
  assert (A : forall hs f, resp_headers hs f = None <-> exists k, In (k, []) hs /\ (same_key k (B "content-type") \/ same_key k (B "transfer-encoding"))).
  { induction hs as [|[k vs] hs IH]; intros f; cbn [resp_headers]; [split; [discriminate|intros (k & [] & _)]|].
    destruct (resp_header k vs f) as [f1|] eqn:E.
    - rewrite IH. split; intros (k' & Hi & Hk); exists k'; (split; [|exact Hk]); [right; exact Hi|]. destruct Hi as [Hi|Hi]; [|exact Hi].
      injection Hi as -> ->. exfalso. pose proof (proj2 (header_panics k' [] f) (conj eq_refl Hk)). congruence.
    - apply header_panics in E. destruct E as [-> Hk]. split; [intros _; exists k; split; [left; reflexivity|exact Hk]|reflexivity]. }
  assert (C : forall o f, resp_op o f = None <-> ~ GivesValue o).
  { intros o f. assert (D : forall hs, header_calls o = hs -> (resp_headers hs f = None <-> ~ GivesValue o)).
    { intros hs Hh. rewrite A. unfold GivesValue. rewrite Hh. split.
      - intros (k & Hi & Hk) G. exact (G k Hi Hk).
      - intros G. destruct (resp_headers hs f) as [g|] eqn:R; [|apply A in R; exact R]. exfalso. apply G. intros k Hi Hk.
        assert (X : resp_headers hs f = None) by (apply A; exists k; auto). congruence. }
    destruct o as [c|s|t|t|k vs|hs|b|b|p r|a|cs|ps e|e cs|]; cbn [resp_op]; try (rewrite <- (D [] eq_refl); cbn [resp_headers]; split; discriminate).
    - rewrite <- (D [(k, vs)] eq_refl). cbn [resp_headers]. destruct (resp_header k vs f); split; congruence.
    - exact (D hs eq_refl). }
  induction os as [|o os IH]; intros f; cbn [resp_ops]; [split; [discriminate|intros (o & [] & _)]|].
  destruct (resp_op o f) as [f1|] eqn:E.
  - rewrite IH. split; intros (o' & Hi & Ho); exists o'; (split; [|exact Ho]); [right; exact Hi|]. destruct Hi as [ <- |Hi]; [|exact Hi].
    apply (C o f) in Ho. congruence.
  - split; [intros _|reflexivity]. exists o. split; [left; reflexivity|]. apply (C o f). exact E.
Qed.
