(* Lemmas for the exact forms of C24, C58 and C62. *)
From Verif Require Import M_Base M_Status M_Method M_Proto M_Client M_KeyValue M_Query M_Request M_Parser M_Response
  M_Serializer M_Suit M_Virtual S_KeyValue S_Response S_Static S_Virtual S_Whose L_Base L_Response L_Response2 L_Response3 L_Attach L_Virtual.

Lemma client_write_failed : forall c d, ~ write_ok c -> fst (client_write c d) = false.
Proof.
  intros c d H. unfold write_ok in H. unfold client_write. destruct (cl_wres c) as [|[n|] q]; cbn in *; [exfalso; apply H; reflexivity|reflexivity|exfalso; apply H; reflexivity].
Qed.
Theorem attachment_closes : forall p r f a s c res s' c' f', f_att f = Some a -> write_response p r f s c = (res, s', c', f') ->
  exists a', f_att f' = Some a' /\
   ((r_method r <> HEAD /\ write_ok c /\ res <> WPanic /\ res <> WStuck /\ at_closer a = true /\ at_closes a' = S (at_closes a)) \/
    (~ (r_method r <> HEAD /\ write_ok c /\ res <> WPanic /\ res <> WStuck /\ at_closer a = true) /\ at_closes a' = at_closes a)).
Proof.
  intros p r f a s c res s' c' f' Ha H. pose proof H as H0. unfold write_response in H. rewrite Ha in H. unfold send_attachment in H. cbv zeta in H.
  set (s1 := put CRLF _) in *.
  assert (D : write_ok c \/ ~ write_ok c) by (unfold write_ok; destruct (hd None (cl_wres c)); [right; discriminate|left; reflexivity]).
  destruct D as [Hw|Hw].
  2:{ pose proof (client_write_failed c (s_buff s1) Hw) as E. destruct (client_write c (s_buff s1)) as [b c1]. cbn [fst] in E. subst b. cbn [negb] in H.
      injection H as <- <- <- <-. exists a. split; [destruct (0 <? at_size a)%Z; exact Ha|]. right. split; [tauto|reflexivity]. }
  destruct (method_eqb (r_method r) HEAD) eqn:Em.
  - destruct (client_write_ok c (s_buff s1) Hw) as (c1 & Ec & _). rewrite Ec in H. cbn [negb] in H. injection H as <- <- <- <-.
    exists a. split; [destruct (0 <? at_size a)%Z; exact Ha|]. right. split; [|reflexivity].
    intros (N & _). apply N. destruct (r_method r); try discriminate Em; reflexivity.
  - assert (Hm : r_method r <> HEAD) by (intros E; rewrite E in Em; discriminate Em).
    destruct (client_write_ok c (s_buff s1) Hw) as (c1 & Ec & _). rewrite Ec in H. cbn [negb] in H.
    match type of H with context [if (0 <? at_size a)%Z then write_plain ?x ?m ?y else write_chunked ?x ?m ?y] =>
      destruct (if (0 <? at_size a)%Z then write_plain x m y else write_chunked x m y) as [[[w m2] c2] ev2] end.
    destruct w; injection H as <- <- <- <-; eexists; (split; [reflexivity|]); cbn [at_closes];
      try (right; split; [intros (_ & _ & A & B & _); congruence|reflexivity]);
      unfold att_close, set_events; cbn [at_closer at_closes];
      (destruct (at_closer a); cbn [at_closer at_closes]; [left; repeat (split; [assumption || discriminate || reflexivity|]); reflexivity|right; split; [intros (_ & _ & _ & _ & A); discriminate A|reflexivity]]).
Qed.
Theorem refused_error : forall W (os : list (vop W)) w r e, (forall a b l, hosts_of r = a :: b :: l -> Refused 400%N w (v_error (v_build os) w r e)) /\
  (hosts_of r = [] -> NoDefault os -> Refused 400%N w (v_error (v_build os) w r e)) /\
  (forall h, hosts_of r = [h] -> NoHost os h -> NoDefault os -> Refused 421%N w (v_error (v_build os) w r e)).
Proof.
  intros W os w r e. pose proof (virtual_error W os w r e) as H. rewrite get_router_spec in H. pose proof (default_spec W os) as HD. repeat split.
  - intros a b l Hr. rewrite Hr in H. exact H.
  - intros Hr Hn. rewrite Hr in H. cbn [fst snd] in H. destruct (v_default (v_build os)) as [y|]; [exfalso; exact (default_none W os y HD Hn)|exact H].
  - intros h Hr Hh Hn. rewrite Hr in H. pose proof (hosts_spec W os h) as HH. destruct (v_find (v_hosts (v_build os)) h) as [y|]; [exfalso; exact (host_none W os h y HH Hh)|].
    cbn [fst snd] in H. destruct (v_default (v_build os)) as [y|]; [exfalso; exact (default_none W os y HD Hn)|exact H].
Qed.
(* one of the cases always holds *)
Lemma host_or : forall W (os : list (vop W)) h, (exists x, HostIs os h x) \/ NoHost os h.
Proof. intros W os h. pose proof (hosts_spec W os h) as H. destruct (v_find (v_hosts (v_build os)) h) as [x|]; [left; exists x|right]; exact H. Qed.
Lemma default_or : forall W (os : list (vop W)), (exists x, DefaultIs os x) \/ NoDefault os.
Proof. intros W os. pose proof (default_spec W os) as H. destruct (v_default (v_build os)) as [x|]; [left; exists x|right]; exact H. Qed.
Theorem whose_total : forall W (os : list (vop W)) hs, exists d, Whose os hs d.
Proof.
  intros W os [|h [|b l]].
  - destruct (default_or W os) as [[x H]|H]; eexists; [apply Y_none|apply Y_bad]; exact H.
  - destruct (host_or W os h) as [[x H]|H]; [eexists; apply Y_host; exact H|].
    destruct (default_or W os) as [[x D]|D]; eexists; [apply Y_unknown|apply Y_misdirected]; eassumption.
  - eexists. apply Y_many.
Qed.
Theorem whose_unique : forall W (os : list (vop W)) hs d d', Whose os hs d -> Whose os hs d' -> d = d'.
Proof.
  intros W os hs d d' H H'. destruct H as [h x H|h x H D|h H D|x D|D|a b l]; inversion H' as [h' x' K|h' x' K E|h' K E|x' E|E|a' b' l']; subst;
    try reflexivity;
    try (exfalso; eapply host_none; eassumption);
    try (exfalso; eapply default_none; eassumption);
    f_equal; first [eapply host_unique; eassumption|eapply default_unique; eassumption].
Qed.
Theorem whose_request : forall W (os : list (vop W)) w r d, Whose os (hosts_of r) d ->
  match d with inl x => GivenTo x w r (v_request (v_build os) w r) | inr c => Refused c w (v_request (v_build os) w r) end.
Proof.
  intros W os w r d H. destruct (refused W os w r) as (R1 & R2 & R3). remember (hosts_of r) as hs eqn:E. symmetry in E.
  destruct H as [h x H|h x H D|h H D|x D|D|a b l].
  - exact (to_host W os w r h x E H).
  - apply to_default; [right; exists h; split; assumption|exact D].
  - exact (R3 h eq_refl H D).
  - apply to_default; [left; exact E|exact D].
  - exact (R2 eq_refl D).
  - exact (R1 a b l eq_refl).
Qed.
Theorem whose_error : forall W (os : list (vop W)) w r e d, Whose os (hosts_of r) d ->
  match d with inl x => ErrorGivenTo x w r e (v_error (v_build os) w r e) | inr c => Refused c w (v_error (v_build os) w r e) end.
Proof.
  intros W os w r e d H. destruct (refused_error W os w r e) as (R1 & R2 & R3). remember (hosts_of r) as hs eqn:E. symmetry in E.
  destruct H as [h x H|h x H D|h H D|x D|D|a b l].
  - exact (to_host_error W os w r e h x E H).
  - apply to_default_error; [right; exists h; split; assumption|exact D].
  - exact (R3 h eq_refl H D).
  - apply to_default_error; [left; exact E|exact D].
  - exact (R2 eq_refl D).
  - exact (R1 a b l eq_refl).
Qed.
