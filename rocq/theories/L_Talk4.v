(* Lemmas: applications on connections that receive any bytes. *)
From Verif Require Import M_Base M_Status M_Method M_Proto M_KeyValue M_Query M_Request M_Parser M_Client M_Body
  M_Response M_Serializer M_Suit M_Path M_Radix M_Router S_KeyValue S_Chunk S_Head S_Parser S_Body S_Response S_Split S_Verdict S_Arrive S_Conn S_Iso S_Routes S_Router S_Serve S_Upgrade S_Talk
  L_Base L_Head L_Router L_Router2 L_Router4 L_Router5 L_Router6 L_Router7 L_Conn L_Conn2 L_Conn3 L_Upgrade L_Verdict L_Serve L_VerdictConn L_Arrive6 L_Arrive7 L_Talk L_Talk2 L_Talk3.

(* the path of a head is not empty *)
Lemma heard_nonempty : forall lim reads h rest, HeadHeard lim reads (VTaken h rest) -> h_decoded h <> [].
Proof.
  intros lim reads h rest H. remember (VTaken h rest) as v eqn:Ev. destruct H as [| | | | | | | | |m l t h0 t' v' _ _ _ G _ T]; try discriminate Ev.
  assert (K : h_decoded h = h_decoded h0) by (destruct v'; cbn in Ev; inversion Ev; reflexivity). rewrite K.
  destruct G as (_ & _ & _ & _ & _ & _ & Hp & _ & D). destruct (h_path h0) as [|c p]; [destruct (Hp eq_refl)|]. inversion D; discriminate.
Qed.

Section App.
Variable W : Type.
Variable os : list (list nat * rop W).
Variable x : runtime W.
Hypothesis running : Running os x.
Hypothesis plain : PlainAliases os.
Hypothesis routable : HasParams os -> forall f t, In (f, t) (aliases os) -> t <> [].
Definition reachable (p : bytes) : Prop := p <> [].
Lemma reachable_decided : forall p, reachable p \/ ~ reachable p.
Proof.
  intros [|c p]; [right; intros H; exact (H eq_refl)|left; discriminate].
Qed.
Lemma heard_sorted : forall lim h r, reachable (h_decoded h) -> Heard lim h r -> Sorted_out W os x r.
Proof.
  intros lim h r Hp Hr. pose proof (heard_path _ _ _ Hr) as Er. destruct (running_inv W os x running) as (routes & _ & _ & _ & _ & _ & _ & [[Hs _]|[Hd _]]).
  - apply static_sorted; assumption.
  - apply dynamic_sorted; [exact running|exact Hd|]. apply (nonempty_arrives W os x running plain); [|exact (routable Hd)].
    rewrite Er. exact Hp.
Qed.
Lemma heard_ordinary : forall fbs lim h r, OrdinaryApp fbs os -> reachable (h_decoded h) -> Heard lim h r -> forall w, Ordinary fbs (on_request x w r).
Proof.
  intros fbs lim h r HO Hp Hr w. destruct (dispatched W os x r running plain (heard_sorted _ _ _ Hp Hr)) as (g & r1 & HD & HW).
  pose proof (dispatch_ordinary W os fbs r g r1 HO HD) as Hh. destruct (HW w) as [[-> _]|(e & r2 & -> & _)].
  - apply Ta_update; [apply (route_keeps W os x running plain)|apply Hh].
  - apply Ta_update; [apply (route_keeps W os x running plain)|]. apply Ta_update; [apply set_error_harmless|apply Hh].
Qed.
Lemma heard_routed : forall lim h r w text resp w1 r', reachable (r_path r) -> Heard lim h r ->
  Handled (on_request x) w r text resp w1 r' -> Routed os w r text resp w1 r'.
Proof.
  intros lim h r w text resp w1 r' Hp Hr (v' & HS). destruct (dispatched W os x r running plain (heard_sorted _ _ _ (eq_ind _ reachable Hp _ (heard_path _ _ _ Hr)) Hr)) as (g & r1 & HD & HW).
  exists g, r1. split; [exact HD|]. exists v'. destruct (HW w) as [[E Ef]|(e & r2 & E & Ef & E1)]; rewrite E in HS.
  - inversion HS; subst. assumption.
  - inversion HS as [| | |g0 k ? ? ? ? ? HS2| | | |]; subst. cbn beta in HS2. inversion HS2; subst. assumption.
Qed.
End App.

