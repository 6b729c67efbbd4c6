(* Lemmas: a request goes to one handler. *)
From Coq Require Import List Lia Permutation.
From Verif Require Import M_Base M_Status M_Method M_Proto M_Uri M_KeyValue M_Query M_Request M_Parser M_Client M_Body
  M_Response M_Serializer M_Suit M_Path M_Radix M_Router S_Static S_KeyValue S_Chunk S_Head S_Parser S_Body S_Response S_Conn S_Split S_Routes S_Router S_Serve
  L_Base L_Path L_Radix L_Router L_Router2 L_Router4 L_Router5 L_Router6 L_Router7 L_RouterEx L_Static L_Serve.
Import ListNotations.

Section One.
Variable W : Type.
Notation handler := (handler W).
Notation ops := (list (list nat * rop W)).

Lemma arrives_unique : forall (os : ops) r r0 r1, PlainAliases os -> Arrives os r r0 -> Arrives os r r1 -> r0 = r1.
Proof.
  intros os r r0 r1 (_ & HD & _) H0 H1. destruct H0 as [t Ht|Hn], H1 as [t' Ht'|Hn'].
  - replace t' with t; [reflexivity|]. revert HD Ht Ht'. generalize (aliases os). intros l. induction l as [|[f u] l IH]; [intros _ []|].
    intros HD. cbn [map fst] in HD. inversion HD as [|? ? N1 N2]; subst.
    intros [E|E] [E'|E']; [congruence| | |apply IH; assumption]; exfalso; apply N1.
    + injection E as -> _. apply (in_map fst) in E'. exact E'.
    + injection E' as -> _. apply (in_map fst) in E. exact E.
  - exfalso. apply Hn'. apply (in_map fst) in Ht. exact Ht.
  - exfalso. apply Hn. apply (in_map fst) in Ht'. exact Ht'.
  - reflexivity.
Qed.

Lemma sorted : forall (os : ops) x r, Running os x -> PlainAliases os ->
  (HasParams os -> forall r0, Arrives os r r0 -> r_path r0 <> []) -> Sorted_out W os x r.
Proof.
  intros os x r HR HA HP. destruct (running_inv W os x HR) as (routes & _ & _ & _ & _ & _ & _ & [[Hs _]|[Hd _]]).
  - apply static_sorted; assumption.
  - apply dynamic_sorted; [exact HR|exact Hd|]. apply (HP Hd). apply (arrives W os x r HR HA).
Qed.
(* a place is where the router goes *)
Lemma place_goes : forall (os : ops) x r R r1, Running os x -> Sorted_out W os x r -> (HasParams os -> DistinctTemplates os) ->
  Place os (arrive x r) R r1 -> Answered R r1 (route x r).
Proof.
  intros os x r R r1 HR HS HPR HP. inversion HP as [H1 H2 EQ ER|p t parts ps H1 H2 H3 (m & h & H4) H5 H6|H1 H2 H3 EQ ER]; subst.
  - destruct (static_routing W os x r HR H1) as [S1 _]. apply S1. exact H2.
  - destruct (dynamic_routing W os x r parts HR H1 (HPR H1) H2) as [T1 _]. eapply T1; eassumption.
  - destruct HS as [(R' & r1' & HP' & HA')|(_ & HN & _)]; [|destruct (HN H1 H2)].
    inversion HP' as [K1 K2 EQ ER|p t parts ps K1 K2 K3 (m & h & K4) K5 K6|K1 K2 K3 EQ ER]; subst; [contradiction| |exact HA'].
    exfalso. apply K6. destruct H3 as [[H3 _]|[_ H3]]; [contradiction|]. eapply H3; eassumption.
Qed.
Lemma nowhere_goes : forall (os : ops) x r, Running os x -> Sorted_out W os x r ->
  Nowhere os (arrive x r) -> (HasParams os -> ~ PathOf [] (r_path (arrive x r))) -> snd (route x r) = ToError ErrNotFound.
Proof.
  intros os x r HR [(R & r1 & HP & _)|(_ & _ & ps & _ & E)] HN HO; [|rewrite E; reflexivity].
  exfalso. inversion HP as [K1 (m & h & K2) EQ ER|p t parts ps K1 K2 K3 (m & h & K4) K5 K6|K1 K2 K3 EQ ER]; subst.
  - destruct HN as [[_ N]|[N _]]; [exact (N m h K2)|contradiction].
  - destruct HN as [[N _]|[_ N]]; [contradiction|]. apply K6. eapply N; eassumption.
  - exact (HO K1 K2).
Qed.
(* what the router makes of a request that is to go to a handler *)
Lemma dispatch_goes : forall (os : ops) x r h r1, Running os x -> PlainAliases os -> Sorted_out W os x r -> (HasParams os -> DistinctTemplates os) ->
  Dispatch os r h r1 ->
  snd (route x r) = ToHandler h \/
  (snd (route x r) = ToError ErrMethodNotAllowed /\
     ((r_method r = TRACE /\ h = traced) \/ (r_method r <> TRACE /\ h = error_choice os 405%N))) \/
  (snd (route x r) = ToError ErrNotFound /\
     ((exists p, In (p, h) (caught os) /\ Prefix p (r_path (arrive x r)) /\
         forall p' h', In (p', h') (caught os) -> Prefix p' (r_path (arrive x r)) -> (List.length p' <= List.length p)%nat) \/
      ((forall p h, In (p, h) (caught os) -> ~ Prefix p (r_path (arrive x r))) /\ h = error_choice os 404%N))).
Proof.
  intros os x r h r1 HR HA HS HPR HD. pose proof (arrives W os x r HR HA) as Hx.
  inversion HD as [r0 R r2 m h0 a D1 D2 D3 D4 D5|r0 R r2 a D1 D2 D3 D4 D5 D6|r0 R r2 a D1 D2 D3 D4 D5|r0 p h0 ps D1 D2 D3 D4 D5 D6 D7|r0 ps D1 D2 D3 D4 D5]; subst;
    pose proof (arrives_unique os r _ _ HA D1 Hx) as E; rewrite E in *; clear E.
  - pose proof (place_goes os x r R r2 HR HS HPR D2) as (A1 & A2 & _). rewrite (place_method W os _ R r2 D2), (arrive_method W os r _ Hx) in A1, A2.
    left. destruct D4 as [->|(E & -> & Hn)]; [apply A1; exact D3|apply A2; assumption].
  - pose proof (place_goes os x r R r2 HR HS HPR D2) as (_ & _ & A3 & _). rewrite (place_method W os _ R r2 D2), (arrive_method W os r _ Hx) in A3.
    right. left. split; [apply A3; assumption|]. right. auto.
  - pose proof (place_goes os x r R r2 HR HS HPR D2) as (_ & _ & A3 & _). rewrite (place_method W os _ R r2 D2), (arrive_method W os r _ Hx), D4 in A3.
    right. left. split; [apply A3; [assumption|discriminate]|]. left. auto.
  - right. right. split; [apply (nowhere_goes os x r HR HS); assumption|]. left. exists p. auto.
  - right. right. split; [apply (nowhere_goes os x r HR HS); assumption|]. right. auto.
Qed.
Lemma prefix_same : forall (a b s : bytes), Prefix a s -> Prefix b s -> List.length a = List.length b -> a = b.
Proof.
  intros a b s (u & Hu) (v & Hv) H. rewrite Hu in Hv. apply (f_equal (firstn (List.length a))) in Hv. rewrite firstn_app, Nat.sub_diag, firstn_all, firstn_O, app_nil_r in Hv.
  rewrite H, firstn_app, Nat.sub_diag, firstn_all, firstn_O, app_nil_r in Hv. exact Hv.
Qed.
Theorem one_handler : forall (os : ops) x r h h' r1 r1', Running os x -> PlainAliases os ->
  (HasParams os -> DistinctTemplates os /\ forall r0, Arrives os r r0 -> r_path r0 <> []) ->
  Dispatch os r h r1 -> Dispatch os r h' r1' ->
  h = h' \/ exists p, In (p, h) (caught os) /\ In (p, h') (caught os).
Proof.
  intros os x r h h' r1 r1' HR HA HP H H'. pose proof (sorted os x r HR HA (fun Hd => proj2 (HP Hd))) as HS.
  assert (HPR : HasParams os -> DistinctTemplates os) by (intros Hd; apply HP; exact Hd).
  destruct (dispatch_goes os x r h r1 HR HA HS HPR H) as [E|[(E & D)|(E & D)]];
  destruct (dispatch_goes os x r h' r1' HR HA HS HPR H') as [E'|[(E' & D')|(E' & D')]]; rewrite E in E'; try discriminate E'.
  - injection E' as ->. left. reflexivity.
  - left. destruct D as [(A & ->)|(A & ->)], D' as [(A' & ->)|(A' & ->)]; try reflexivity; contradiction.
  - destruct D as [(p & A & B1 & C)|(A & ->)], D' as [(p' & A' & B' & C')|(A' & ->)].
    + right. exists p. split; [exact A|]. replace p with p'; [exact A'|]. apply (prefix_same p' p (r_path (arrive x r)) B' B1).
      specialize (C _ _ A' B'). specialize (C' _ _ A B1). lia.
    + destruct (A' _ _ A B1).
    + destruct (A _ _ A' B').
    + left. reflexivity.
Qed.
End One.
