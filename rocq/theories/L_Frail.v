(* Lemmas: applications that may panic anywhere, without Recover. *)
From Coq Require Import Permutation Sorted.
From Verif Require Import M_Base M_Status M_Method M_Proto M_KeyValue M_Query M_Request M_Parser M_Client M_Body
  M_Response M_Serializer M_Suit M_Path M_Radix M_Router S_Static S_KeyValue S_Chunk S_Head S_Parser S_Body S_Response S_Conn S_Split S_Routes S_Router
  S_Serve S_Upgrade S_Mutators S_Mutated S_Crash S_Frail
  L_Base L_Path L_Radix L_Router L_Router2 L_Router3 L_Router4 L_Router5 L_Conn L_Serve L_Serve2 L_Upgrade L_Mutators L_Mutated L_Crash.

(* exactly the empty path of a router with parameters panics *)
Lemma route_panics : forall W (os : list (list nat * rop W)) x r, Running os x ->
  (snd (route x r) = ToPanic <-> HasParams os /\ r_path (arrive x r) = []).
Proof.
  intros W os x r HR. split.
  - intros HP. destruct (r_path (arrive x r)) as [|c s] eqn:E.
    + split; [|reflexivity]. destruct (running_inv W os x HR) as (routes & _ & _ & _ & _ & _ & _ & [[Hs Ht]|[Hd _]]); [|exact Hd].
      exfalso. unfold route in HP. rewrite Ht in HP. destruct (ep_get _ _) as [e|] in HP; [|discriminate]. unfold to_endpoint in HP. destruct (get_handler _ _) in HP; discriminate.
    + exfalso. assert (Hne : r_path (arrive x r) <> []) by (rewrite E; discriminate).
      assert (HS : Sorted_out W os x r).
      { destruct (running_inv W os x HR) as (routes & _ & _ & _ & _ & _ & _ & [[Hs Ht]|[Hd _]]); [apply static_sorted; assumption|apply dynamic_sorted; assumption]. }
      destruct HS as [(R & r1 & HPl & (B1 & B2 & B3 & _))|(_ & _ & ps & _ & E2)]; [|rewrite E2 in HP; discriminate].
      destruct (place_has W os _ R r1 (r_method r1) HPl) as [(h & Hh)|Hn]; [rewrite (B1 h Hh) in HP; discriminate|].
      destruct (method_eqb (r_method r1) HEAD) eqn:Eh.
      * apply method_eqb_eq in Eh. destruct (place_has W os _ R r1 GET HPl) as [(h & Hh)|Hg].
        -- rewrite Eh in Hn. rewrite (B2 h Eh Hn Hh) in HP. discriminate.
        -- rewrite (B3 Hn (fun _ => Hg)) in HP. discriminate.
      * assert (K : r_method r1 = HEAD -> forall h, ~ R GET h) by (intros K; rewrite K in Eh; discriminate). rewrite (B3 Hn K) in HP. discriminate.
  - intros [Hd E]. destruct (running_inv W os x HR) as (routes & _ & _ & _ & _ & _ & _ & [[Hs _]|[_ (n & Ht & Hn)]]); [contradiction|].
    unfold route. rewrite Ht, E. destruct n; reflexivity.
Qed.

Lemma tame_may : forall W ok panics (p : hprog W), Tame ok panics p -> Tame ok true p.
Proof.
  intros W ok panics p H. induction H as [ok panics resp w Hs|ok|ok panics op k Hk IH|ok panics g k Hg Hk IH|ok panics k Hk IH|ok mid panics p q k Hp IHp Hq IHq Hk IHk].
  - apply Ta_ret. exact Hs.
  - apply Ta_crash.
  - apply Ta_body. exact IH.
  - apply Ta_update; assumption.
  - apply Ta_look. exact IH.
  - eapply Ta_try; [exact Hp|exact IHq|exact IHk].
Qed.
Lemma ordinary_frail : forall W fbs (os : list (list nat * rop W)), OrdinaryApp fbs os -> FrailApp fbs os.
Proof. intros W fbs os (H1 & H2 & H3). split; [|split]; intros; eapply tame_may; [eapply H1|eapply H2|eapply H3]; eassumption. Qed.

Section Frail.
Variable W : Type.
Notation ops := (list (list nat * rop W)).
Variable os : ops.
Variable x : runtime W.
Hypothesis running : Running os x.
Hypothesis harmless_mus : HarmlessMutators os.
Variable mus : list (request -> request).
Hypothesis in_order : InOrder os [] mus.
Variable fbs : Z.
Hypothesis frail : FrailApp fbs os.

Lemma params_settled : HasParams (settled os) <-> HasParams os.
Proof. unfold HasParams. destruct (settled_same W os) as (-> & _). reflexivity. Qed.
Lemma params_dec : HasParams os \/ ~ HasParams os.
Proof. destruct (running_inv W os x running) as (routes & _ & _ & _ & _ & _ & _ & [[Hs _]|[Hd _]]); auto. Qed.
Lemma dispatch_frail : forall r h r1, Dispatch (settled os) r h r1 -> forall w, Tame (CanBeSent fbs) true (h w r1).
Proof.
  intros r h r1 H. destruct frail as (O1 & O2 & O3). destruct (settled_same W os) as (S1 & S2 & S3).
  destruct H as [r0 R r1 m h a Ha HP HR Hm HA|r0 R r1 a|r0 R r1 a|r0 p h ps Ha HN HPO Hps Hi Hp Hl|r0 ps].
  - intros w. destruct HP as [_ _|p t parts ps _ _ _ _ _ _|_ _ _]; [| |contradiction]; eapply O1; rewrite <- S1; exact HR.
  - intros w. rewrite S3. apply O3. auto.
  - intros w. apply Ta_ret. intros f E. injection E as <-. apply Sd_plain. reflexivity.
  - intros w. rewrite S2 in Hi. eapply O2; [exact Hi|exact Hp].
  - intros w. rewrite S3. apply O3. auto.
Qed.
(* every request goes to a handler, or has no path *)
Lemma cases : forall r, (HasParams os /\ r_path (one_by_one mus r) = []) \/
  ((HasParams os -> r_path (one_by_one mus r) <> []) /\ Sorted_out W (settled os) (without x) (one_by_one mus r)).
Proof.
  intros r. pose proof (running_settled W os x running) as HR. destruct params_dec as [Hd|Hs].
  - destruct (r_path (one_by_one mus r)) as [|c s] eqn:E; [left; auto|]. right. split; [intros _; discriminate|].
    apply dynamic_sorted; [exact HR|apply params_settled; exact Hd|]. destruct (arrives W _ _ (one_by_one mus r) HR (proj1 (settled_plain W os))) as [t Ht|_].
    + rewrite (proj2 (settled_plain W os)) in Ht. destruct Ht.
    + cbn [set_path r_path]. rewrite E. destruct (normalize_head c s) as (u & K). rewrite K. discriminate.
  - right. split; [intros Hd; contradiction|]. apply static_sorted; [exact HR|]. intros K. apply Hs. apply params_settled. exact K.
Qed.
Lemma pathless : forall w r, HasParams os -> r_path (one_by_one mus r) = [] -> on_request x w r = HUpdate (fun r0 => fst (route x r0)) HCrash.
Proof.
  intros w r Hd E. pose proof (running_settled W os x running) as HR. destruct (same_request W os x running mus in_order w r) as (k & E1 & E2). rewrite E1. f_equal.
  assert (HP : snd (route (without x) (one_by_one mus r)) = ToPanic).
  { apply (route_panics W _ _ _ HR). split; [apply params_settled; exact Hd|]. destruct (arrives W _ _ (one_by_one mus r) HR (proj1 (settled_plain W os))) as [t Ht|_].
    - rewrite (proj2 (settled_plain W os)) in Ht. destruct Ht.
    - cbn [set_path r_path]. rewrite E. reflexivity. }
  unfold on_request in E2. injection E2 as <-. destruct (route (without x) (one_by_one mus r)) as [r' t]. cbn [snd] in HP. rewrite HP. reflexivity.
Qed.
Lemma frail_tame : forall w r, Tame (CanBeSent fbs) true (on_request x w r).
Proof.
  intros w r. pose proof (route_harmless W os x running harmless_mus) as HH. destruct (cases r) as [[Hd E]|[_ HS]].
  - rewrite (pathless w r Hd E). apply Ta_update; [exact HH|apply Ta_crash].
  - destruct (dispatched W (settled os) (without x) (one_by_one mus r) (running_settled W os x running) (proj1 (settled_plain W os)) HS) as (h & r1 & HD & HW).
    pose proof (dispatch_frail _ h r1 HD) as Hh. destruct (same_request W os x running mus in_order w r) as (k & E1 & E2). rewrite E1.
    destruct (HW w) as [[E _]|(e & r2 & E & _)]; rewrite E in E2; injection E2 as <-.
    + apply Ta_update; [exact HH|apply Hh].
    + apply Ta_update; [exact HH|]. apply Ta_update; [apply set_error_harmless|apply Hh].
Qed.
Lemma frail_outcome : forall q r w o r' v', Shows (q_head q) r ->
  HSteps (more_of (q_head q)) (on_request x w r) r (fresh_view (q_text q)) o r' v' -> Outcome os mus w q o r'.
Proof.
  intros q r w o r' v' Hr HS. destruct (cases r) as [[Hd E]|[Hp HSo]].
  - rewrite (pathless w r Hd E) in HS. inversion HS as [| | |g k0 ? ? ? ? ? HS2| | | |]; subst. cbn beta in HS2. inversion HS2; subst. eapply Oc_pathless; eassumption.
  - destruct (dispatched W (settled os) (without x) (one_by_one mus r) (running_settled W os x running) (proj1 (settled_plain W os)) HSo) as (h & r1 & HD & HW).
    eapply Oc_handled; [exact Hr|exact Hp|exact HD|].
    destruct (same_request W os x running mus in_order w r) as (k & E1 & E2). rewrite E1 in HS. inversion HS as [| | |g k0 ? ? ? ? ? HS2| | | |]; subst. cbn beta in HS2.
    rewrite (mutated_first W x r), (same_mus W os x running mus in_order) in HS2.
    destruct (HW w) as [[E Ef]|(e & r2 & E & Ef & E3)]; rewrite E in E2; injection E2 as <-.
    + rewrite Ef in HS2. exact HS2.
    + inversion HS2; subst. eassumption.
Qed.
Lemma frail_conversation : forall defs reqs w past outs w2 closed, Conversation defs (on_request x) reqs w past outs w2 closed ->
  FrailTalk defs os mus reqs w past outs w2 (match closed with None => AllAnswered | Some rest => ClosedBefore rest end).
Proof.
  intros defs reqs w past outs w2 closed H.
  induction H as [w past|q reqs w past r resp w1 r' out outs w2 closed H1 (v' & H2) H3 H4 H5 IH|q reqs w past r resp w1 r' out H1 (v' & H2) H3 H4].
  - apply Ft_end.
  - eapply Ft_open; [eapply frail_outcome; [exact H1|exact H2]|exact H3|exact H4|exact IH].
  - eapply Ft_close; [eapply frail_outcome; [exact H1|exact H2]|exact H3|exact H4].
Qed.
Lemma frail_crash : forall defs before q after r' w past outs w2 closed, Conversation defs (on_request x) before w past outs w2 closed -> closed = None ->
  Outcome os mus w2 q Panics r' -> FrailTalk defs os mus (before ++ q :: after) w past outs w2 (PanickedAt q after).
Proof.
  intros defs before q after r' w past outs w2 closed H.
  induction H as [w past|q0 reqs w past r resp w1 r0 out outs w2 closed H1 (v' & H2) H3 H4 H5 IH|q0 reqs w past r resp w1 r0 out H1 (v' & H2) H3 H4]; intros Ec HO.
  - eapply Ft_panic. exact HO.
  - cbn [app]. eapply Ft_open; [eapply frail_outcome; [exact H1|exact H2]|exact H3|exact H4|exact (IH Ec HO)].
  - discriminate.
Qed.
End Frail.
