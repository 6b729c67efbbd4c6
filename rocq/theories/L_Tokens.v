(* Comma-separated lists and white space trimming. *)
From Verif Require Import M_Base L_Base M_Proto M_Parser S_Head S_Tokens L_Parser L_Head.

Local Arguments cut : simpl never.

Lemma strip_one_visible : forall encs c l,
  forallb (fun e => match e with x :: _ => negb (visible x) | [] => false end) encs = true ->
  visible c = true -> strip_one encs (c :: l) = None.
Proof.
  induction encs as [|e encs IH]; intros c l H Hc; [reflexivity|].
  cbn [forallb] in H. apply andb_true_iff in H. destruct H as [He H].
  cbn [strip_one]. destruct e as [|x e]; [discriminate|].
  assert (Hx : Byte.eqb c x = false).
  { apply beq_neq. intros ->. rewrite Hc in He. discriminate. }
  cbn [has_prefix]. rewrite Hx. simpl. apply IH; assumption.
Qed.

Lemma strip_one_ows : forall encs c l, ows c -> In [SP] encs -> In [x09] encs ->
  forallb (fun e => match e with [x] => true | x :: _ => negb (Byte.eqb x SP) && negb (Byte.eqb x x09) | [] => false end) encs = true ->
  strip_one encs (c :: l) = Some l.
Proof.
  intros encs c l Hc H1 H2. 
  assert (Hin : In [c] encs) by (destruct Hc as [-> | ->]; assumption). clear H1 H2.
  induction encs as [|e encs IH]; intros H; [contradiction|].
  cbn [forallb] in H. apply andb_true_iff in H. destruct H as [He H].
  cbn [strip_one]. destruct e as [|x [|y e]]; [discriminate| |].
  - assert (Hp : has_prefix (c :: l) [x] = Byte.eqb c x) by (simpl; destruct l; apply andb_true_r). rewrite Hp. destruct (Byte.eqb c x) eqn:Ex.
    + reflexivity.
    + destruct Hin as [Hin|Hin]; [injection Hin as ->; rewrite beq_refl in Ex; discriminate|].
      apply IH; assumption.
  - assert (Hx : Byte.eqb c x = false).
    { apply beq_neq. intros ->. apply andb_true_iff in He. destruct He as [E1 E2].
      destruct Hc as [-> | ->]; [rewrite beq_refl in E1|rewrite beq_refl in E2]; discriminate. }
    cbn [has_prefix]. rewrite Hx. simpl.
    destruct Hin as [Hin|Hin]; [discriminate|]. apply IH; assumption.
Qed.

Lemma strip_all_ows : forall encs a c l fuel, Forall ows a -> visible c = true ->
  In [SP] encs -> In [x09] encs ->
  forallb (fun e => match e with x :: _ => negb (visible x) | [] => false end) encs = true ->
  forallb (fun e => match e with [x] => true | x :: _ => negb (Byte.eqb x SP) && negb (Byte.eqb x x09) | [] => false end) encs = true ->
  (List.length a <= fuel)%nat ->
  strip_all fuel encs (a ++ c :: l) = c :: l.
Proof.
  intros encs a c l fuel Ha Hc H1 H2 H3 H4. revert fuel.
  induction Ha as [|x a Hx Ha IH]; intros fuel Hf.
  - destruct fuel as [|f]; [reflexivity|]. cbn [strip_all app].
    rewrite strip_one_visible by assumption. reflexivity.
  - destruct fuel as [|f]; [simpl in Hf; lia|]. cbn [strip_all app].
    rewrite strip_one_ows by assumption. apply IH. simpl in Hf. lia.
Qed.

Lemma trim_space_token : forall a t b, Forall ows a -> Forall ows b -> token_edges t ->
  trim_space (a ++ t ++ b) = t.
Proof.
  intros a t b Ha Hb (c & d & Hc & Hd & Hh & Hl). unfold trim_space.
  destruct t as [|c' t]; [discriminate|]. injection Hh as ->.
  assert (H1 : trim_left_space (a ++ (c :: t) ++ b) = (c :: t) ++ b).
  { unfold trim_left_space. cbn [app]. apply strip_all_ows; try assumption; try reflexivity.
    - cbn. tauto.
    - cbn. tauto.
    - rewrite app_length. lia. }
  rewrite H1. unfold trim_right_space.
  rewrite (last_byte_some _ _ Hl).
  rewrite !rev_app_distr. cbn [rev app].
  rewrite strip_all_ows.
  - cbn [rev]. rewrite rev_involutive. reflexivity.
  - apply Forall_rev. exact Hb.
  - exact Hd.
  - cbn. tauto.
  - cbn. tauto.
  - reflexivity.
  - reflexivity.
  - rewrite rev_length, !app_length. lia.
Qed.

Lemma pad_nocomma : forall e, pad_ok e -> ~ In x2c (pad_text e).
Proof.
  intros [[a t] b] (Ha & Hb & _ & Ht) Hi. unfold pad_text in Hi. rewrite !in_app_iff in Hi.
  assert (Ho : forall l, Forall ows l -> ~ In x2c l).
  { intros l Hl Hin. rewrite Forall_forall in Hl. destruct (Hl _ Hin) as [E|E]; discriminate. }
  destruct Hi as [Hi|[Hi|Hi]]; [apply (Ho a Ha Hi)|exact (Ht Hi)|apply (Ho b Hb Hi)].
Qed.

Lemma list_elements_join : forall es, es <> [] -> Forall pad_ok es ->
  list_elements (comma_join (map pad_text es)) = map pad_token es.
Proof.
  unfold list_elements. induction es as [|e es IH]; intros Hne H; [contradiction|].
  inversion H as [|e' es' He Hes]. subst.
  assert (Ht : forall l, filter nonempty (trim_space (pad_text e) :: l) = pad_token e :: filter nonempty l).
  { intro l. destruct e as [[a t] b]. destruct He as (Ha & Hb & Hedge & _). unfold pad_text, pad_token.
    rewrite trim_space_token by assumption. cbn [filter].
    destruct t as [|x t]; [destruct Hedge as (c & d & _ & _ & Hh & _); discriminate|]. reflexivity. }
  pose proof (pad_nocomma e He) as Hnc.
  destruct es as [|e2 es].
  - cbn [map comma_join]. rewrite split_on_cut.
    destruct (cut (pad_text e) x2c) as [[x y]|] eqn:Ec.
    + apply cut_some in Ec. destruct Ec as [Ec _]. exfalso. apply Hnc. rewrite Ec.
      apply in_or_app. right. left. reflexivity.
    + cbn [map]. rewrite Ht. reflexivity.
  - change (comma_join (map pad_text (e :: e2 :: es)))
      with (pad_text e ++ x2c :: comma_join (map pad_text (e2 :: es))).
    rewrite split_on_cut, cut_app by exact Hnc.
    cbn [map]. cbn [map] in IH. rewrite Ht. rewrite IH; [reflexivity|discriminate|exact Hes].
Qed.
