(* Lemmas: a router behind its mutators is one without. *)
From Coq Require Import Permutation Sorted.
From Verif Require Import M_Base M_Status M_Method M_Proto M_KeyValue M_Query M_Request M_Parser M_Client M_Body
  M_Response M_Serializer M_Suit M_Path M_Radix M_Router S_Static S_KeyValue S_Chunk S_Head S_Parser S_Body S_Response S_Conn S_Split S_Routes S_Router
  S_Serve S_Upgrade S_Mutators S_Mutated
  L_Base L_Path L_Radix L_Router L_Router2 L_Router3 L_Router4 L_Router5 L_Conn L_Serve L_Serve2 L_Upgrade L_Mutators.

Section Strip.
Variable W : Type.
Notation ops := (list (list nat * rop W)). Notation router := (router W).
Fixpoint strip (g : router) : router := let 'Router p mu ca mw re ch := g in Router p [] ca mw re (map strip ch).

Lemma group_strip : forall (o : rop W) g, settles o = true -> group_op o (strip g) = option_map strip (group_op o g).
Proof.
  intros o [p mu ca mw re ch] H. destruct o; try discriminate; cbn [strip group_op]; try reflexivity.
  - destruct (reg_add _ _ _ _); reflexivity.
  - destruct (existsb _ _); reflexivity.
  - cbn. rewrite map_app. reflexivity.
Qed.
Lemma group_drop : forall (o : rop W) g g', settles o = false -> group_op o g = Some g' -> strip g' = strip g.
Proof. intros o [p mu ca mw re ch] g' H E. destruct o; try discriminate; cbn in E; injection E as <-; reflexivity. Qed.
Lemma at_strip : forall addr (o : rop W) g, settles o = true -> op_at addr o (strip g) = option_map strip (op_at addr o g).
Proof.
  induction addr as [|i addr IH]; intros o g H; [apply group_strip; exact H|]. destruct g as [p mu ca mw re ch]. cbn [strip op_at].
  rewrite nth_error_map. destruct (nth_error ch i) as [c|]; [|reflexivity]. cbn [option_map]. rewrite IH by exact H.
  destruct (op_at addr o c) as [c'|]; [|reflexivity]. cbn [option_map strip]. rewrite map_app. cbn [map]. rewrite firstn_map. f_equal. f_equal. f_equal. f_equal.
  apply skipn_map.
Qed.
Lemma put_same : forall A (f : A -> router) l i c c', nth_error l i = Some c -> f c' = f c -> map f (firstn i l ++ c' :: skipn (S i) l) = map f l.
Proof.
  intros A f. induction l as [|y l IH]; intros [|i] c c' H E; try discriminate; cbn [nth_error firstn skipn app map] in *.
  - injection H as ->. rewrite E. reflexivity.
  - f_equal. eapply IH; eassumption.
Qed.
Lemma at_drop : forall addr (o : rop W) g g', settles o = false -> op_at addr o g = Some g' -> strip g' = strip g.
Proof.
  induction addr as [|i addr IH]; intros o g g' H E; [eapply group_drop; eassumption|]. destruct g as [p mu ca mw re ch]. cbn [op_at] in E.
  destruct (nth_error ch i) as [c|] eqn:En; [|discriminate]. destruct (op_at addr o c) as [c'|] eqn:Ec; [|discriminate]. injection E as <-.
  cbn [strip]. f_equal. eapply put_same; [exact En|]. eapply IH; eassumption.
Qed.
Definition strip_app (a : application W) : application W := App (strip (a_root a)) (a_errs a).
Lemma build_strip : forall (os : ops) a a', build os a = Some a' -> build (settled os) (strip_app a) = Some (strip_app a').
Proof.
  induction os as [|[addr o] os IH]; intros a a' H; cbn [build settled filter snd] in *; [injection H as <-; reflexivity|].
  unfold app_op in H. cbn [fst snd] in H. destruct (op_at addr o (a_root a)) as [g|] eqn:E; [|discriminate]. destruct (settles o) eqn:Es.
  - cbn [build]. unfold app_op. cbn [fst snd strip_app a_root a_errs]. rewrite at_strip by exact Es. rewrite E. cbn [option_map]. exact (IH _ _ H).
  - apply IH in H. unfold strip_app in H at 1. cbn [a_root a_errs] in H. rewrite (at_drop _ _ _ _ Es E) in H. destruct o; try discriminate; exact H.
Qed.
Lemma prepare_strip : forall g g', prepare g = Some g' -> prepare (strip g) = Some (strip g').
Proof.
  induction g as [g IH] using (router_ind2 W). destruct g as [p mu ca mw re ch]. cbn [g_children] in IH. intros g' H. cbn [strip prepare] in *.
  set (step := fun (acc : option (registrar W * list mutator * list (catcher W) * list router)) (c : option router) =>
    match acc, c with
    | Some (reg, mus, cats, done), Some c' =>
        match reg_merge reg (g_reg c') with
        | Some reg' => Some (reg', mus ++ g_mutators c', cats ++ g_catchers c', done ++ [c'])
        | None => None
        end
    | _, _ => None
    end) in *.
  assert (Hnone : forall l, fold_left step l None = None) by (induction l as [|[?|] l IHl]; cbn; auto).
  assert (K : forall l re mu ca done re' mu' ca' done', (forall c, In c l -> forall g', prepare c = Some g' -> prepare (strip c) = Some (strip g')) ->
    fold_left step (map prepare l) (Some (re, mu, ca, done)) = Some (re', mu', ca', done') ->
    fold_left step (map prepare (map strip l)) (Some (re, [], ca, map strip done)) = Some (re', [], ca', map strip done')).
  { clear - Hnone. induction l as [|c l IHl]; intros re mu ca done re' mu' ca' done' Hl H; cbn [map fold_left] in *; [injection H as <- <- <- <-; reflexivity|].
    unfold step in H at 2. destruct (prepare c) as [c'|] eqn:Ec; [|rewrite Hnone in H; discriminate].
    rewrite (Hl c (or_introl eq_refl) c' Ec). unfold step at 2. destruct c' as [p0 mu0 ca0 mw0 re0 ch0] eqn:E0. cbn [strip g_reg g_mutators g_catchers] in *.
    destruct (reg_merge re re0) as [re1|]; [|rewrite Hnone in H; discriminate].
    specialize (IHl _ _ _ _ _ _ _ _ (fun c Hc => Hl c (or_intror Hc)) H). rewrite map_app in IHl. cbn [app map strip] in IHl |- *. exact IHl. }
  destruct (fold_left step (map prepare ch) (Some (re, mu, ca, []))) as [[[[re' mu'] ca'] done']|] eqn:E; [|discriminate].
  injection H as <-. pose proof (K ch re mu ca [] re' mu' ca' done' IH E) as K'. cbn [map] in K'. rewrite K'. reflexivity.
Qed.
Theorem running_settled : forall (os : ops) x, Running os x -> Running (settled os) (without x).
Proof.
  intros os x (a & g & routes & sorted & R1 & R2 & R3 & R4 & R5 & R6).
  exists (strip_app a), (strip g), routes, sorted. split; [exact (build_strip os new_app a R1)|]. split; [apply prepare_strip; exact R2|].
  assert (Eg : g_reg (strip g) = g_reg g /\ g_catchers (strip g) = g_catchers g /\ g_mutators (strip g) = []) by (destruct g; repeat split).
  destruct Eg as (E1 & E2 & E3). rewrite E1, E2. split; [exact R3|]. split; [exact R4|]. split; [exact R5|].
  assert (Em : g_mws (a_root (strip_app a)) = g_mws (a_root a)) by (destruct a as [[]]; reflexivity). rewrite Em. cbn [strip_app a_errs].
  unfold initialize in *. rewrite E1, E3. destruct (rg_dynamic (g_reg g)); [destruct (as_tree routes new_tree); [|discriminate]|]; injection R6 as <-; reflexivity.
Qed.
Lemma settled_plain : forall (os : ops), PlainAliases (settled os) /\ aliases (settled os) = [].
Proof.
  intros os. assert (A : aliases (settled os) = []).
  { unfold aliases. assert (K : forall (P : ops) l, (forall y, In y l -> settles (snd y) = true) -> flat_map (fun x : list nat * rop W => match snd x with Alias from to => [(path_join (full_prefix P (fst x)) from, to)] | _ => [] end) l = []).
    { intros P. induction l as [|[ad o] l IHl]; intros Hl; [reflexivity|]. cbn [flat_map snd]. rewrite IHl by (intros y Hy; apply Hl; right; exact Hy).
      specialize (Hl _ (or_introl eq_refl)). destruct o; try discriminate; reflexivity. }
    apply K. intros y Hy. apply filter_In in Hy. apply Hy. }
  split; [|exact A]. split; [|rewrite A; split; [constructor|intros ? ? []]].
  intros addr mu H. apply filter_In in H. destruct H as [_ H]. discriminate.
Qed.

(* nothing else is lost *)
Lemma filter_flat : forall A B (f : A -> list B) (ok : A -> bool) l, (forall y, ok y = false -> f y = []) -> flat_map f (filter ok l) = flat_map f l.
Proof. intros A B f ok l H. induction l as [|y l IH]; cbn; [reflexivity|]. destruct (ok y) eqn:E; cbn; rewrite IH; [reflexivity|]. rewrite (H y E). reflexivity. Qed.
Lemma calls_settled : forall (os : ops) addr, calls (settled os) addr = filter settles (calls os addr).
Proof.
  intros os addr. unfold calls, settled. induction os as [|[ad o] os IH]; [reflexivity|]. cbn [filter snd fst].
  destruct (settles o) eqn:E; cbn [filter fst]; destruct (addr_eqb ad addr); cbn [map filter snd]; rewrite ?E, IH; reflexivity.
Qed.
Lemma kids_settled : forall (os : ops) addr, kids (settled os) addr = kids os addr.
Proof. intros os addr. unfold kids. rewrite calls_settled. apply filter_flat. intros [] H; try discriminate; reflexivity. Qed.
Lemma uses_settled : forall (os : ops) addr, uses (settled os) addr = uses os addr.
Proof. intros os addr. unfold uses. rewrite calls_settled. apply filter_flat. intros [] H; try discriminate; reflexivity. Qed.
Lemma prefix_settled : forall (os : ops) addr pre, prefix_below (settled os) pre addr = prefix_below os pre addr.
Proof. intros os. induction addr as [|i addr IH]; intros pre; cbn; [reflexivity|]. rewrite kids_settled, IH. reflexivity. Qed.
Lemma chain_settled : forall (os : ops) addr pre, chain_below (settled os) pre addr = chain_below os pre addr.
Proof. intros os. induction addr as [|i addr IH]; intros pre; cbn; rewrite uses_settled, ?IH; reflexivity. Qed.
Theorem settled_same : forall (os : ops), registered (settled os) = registered os /\ caught (settled os) = caught os /\
  forall c, error_choice (settled os) c = error_choice os c.
Proof.
  intros os. split; [|split].
  - unfold registered. rewrite <- (filter_flat _ _ _ (fun call => settles (snd call)) os) by (intros [ad []] H; try discriminate; reflexivity).
    apply flat_map_ext. intros [ad o]. cbn [fst snd]. unfold full_prefix, chain. rewrite prefix_settled, chain_settled. reflexivity.
  - unfold caught. rewrite <- (filter_flat _ _ _ (fun call => settles (snd call)) os) by (intros [ad []] H; try discriminate; reflexivity).
    apply flat_map_ext. intros [ad o]. cbn [fst snd]. unfold full_prefix, chain. rewrite prefix_settled, chain_settled. reflexivity.
  - intros c. unfold error_choice. rewrite uses_settled. assert (K : forall c, handler_for (settled os) c = handler_for os c).
    { intros c0. unfold handler_for. generalize (if (c0 =? AllErrors)%N then Some default_all_errors else if (c0 =? 405)%N then Some (@default_method_not_allowed W) else None).
      induction os as [|[ad o] os IH]; intros acc; [reflexivity|]. unfold settled in *. cbn [filter snd fold_left]. destruct (settles o) eqn:E; cbn [fold_left snd]; rewrite IH; [reflexivity|].
      destruct o; try discriminate; reflexivity. }
    rewrite !K. reflexivity.
Qed.

(* ---- on a connection ---- *)
Variable os : ops.
Variable x : runtime W.
Hypothesis running : Running os x.
Hypothesis harmless_mus : HarmlessMutators os.
Variable mus : list (request -> request).
Hypothesis in_order : InOrder os [] mus.

Lemma same_mus : forall r, one_by_one (x_mutators x) r = one_by_one mus r.
Proof. intros r. apply (order_settled W os); [apply mutators_in_order; exact running|exact in_order]. Qed.
Lemma harmless_all : forall l, Forall harmless l -> harmless (one_by_one l).
Proof.
  induction l as [|mu l IH]; intros H r; [cbn; auto|]. inversion H as [|? ? H1 H2]; subst. cbn. destruct (H1 r) as (A1 & A2 & A3). destruct (IH H2 (mu r)) as (B1 & B2 & B3).
  unfold one_by_one in *. rewrite B1, B2, A1, A2. auto.
Qed.
Lemma mus_harmless : harmless (one_by_one (x_mutators x)).
Proof.
  apply harmless_all. destruct (every_mutator W os x running) as (all & A1 & A2). rewrite Forall_forall. intros mu Hmu.
  apply (Permutation_in _ A2) in Hmu. apply in_concat in Hmu. destruct Hmu as (l & Hl & Hmu).
  assert (K : forall (cs : ops) ls, Forall2 (fun (call : list nat * rop W) mus => Registers (full_prefix os (fst call)) (snd call) mus) cs ls -> In l ls -> exists call, In call cs /\ Registers (full_prefix os (fst call)) (snd call) l).
  { intros cs ls F. induction F as [|call m cs ls Hc _ IHF]; intros Hin; [destruct Hin|]. destruct Hin as [->|Hin]; [exists call; split; [left; reflexivity|exact Hc]|].
    destruct (IHF Hin) as (call' & C1 & C2). exists call'. split; [right; exact C1|exact C2]. }
  destruct (K _ _ A1 Hl) as ([ad o] & C1 & C2). cbn [fst snd] in C2. inversion C2; subst; cbn in Hmu; try contradiction; destruct Hmu as [<-|[]].
  - eapply harmless_mus. exact C1.
  - intros r. match goal with X : renames _ _ _ |- _ => destruct (X r) as [A B] end.
    destruct (list_eq_dec byte_eq_dec (r_path r) (path_join (full_prefix os ad) from)) as [D|D]; [rewrite (A D)|rewrite (B D)]; repeat split; auto.
Qed.
Lemma harmless_comp : forall f g, harmless f -> harmless g -> harmless (fun r => g (f r)).
Proof. intros f g Hf Hg r. destruct (Hf r) as (A1 & A2 & A3). destruct (Hg (f r)) as (B1 & B2 & B3). rewrite B1, B2, A1, A2. auto. Qed.
Lemma harmless_ext : forall f g, (forall r, f r = g r) -> harmless f -> harmless g.
Proof. intros f g E H r. rewrite <- (E r). apply H. Qed.
Lemma route_harmless : harmless (fun r0 => fst (route x r0)).
Proof.
  eapply harmless_ext; [intros r; rewrite (mutated_first W x r); reflexivity|].
  apply (harmless_comp (one_by_one (x_mutators x)) (fun r => fst (route (without x) r)) mus_harmless).
  apply (route_keeps W (settled os) (without x) (running_settled os x running) (proj1 (settled_plain os))).
Qed.
Lemma mutated_sorted : forall reqs q r, MutatedRoutable os mus reqs -> In q reqs -> Shows (q_head q) r -> Sorted_out W (settled os) (without x) (one_by_one mus r).
Proof.
  intros reqs q r HRo Hq Hr. apply sorted; [apply running_settled; exact running|apply settled_plain|]. intros HP. 
  intros r0 Ha. pose proof (HRo HP q r Hq Hr) as P2. destruct Ha as [t Ht|_]; [exfalso; rewrite (proj2 (settled_plain os)) in Ht; destruct Ht|]. cbn [set_path r_path].
  destruct (r_path (one_by_one mus r)) as [|c s]; [congruence|]. destruct (normalize_head c s) as (u & E). rewrite E. discriminate.
Qed.
(* the same request without its mutators *)
Lemma same_request : forall w r, exists k, on_request x w r = HUpdate (fun r0 => fst (route x r0)) k /\
  on_request (without x) w (one_by_one mus r) = HUpdate (fun r0 => fst (route (without x) r0)) k.
Proof. intros w r. unfold on_request. rewrite (mutated_first W x r), same_mus. eexists. split; reflexivity. Qed.
Theorem mutated_ordinary : forall fbs reqs, OrdinaryApp fbs (settled os) -> MutatedRoutable os mus reqs ->
  forall q w r, In q reqs -> Shows (q_head q) r -> Ordinary fbs (on_request x w r).
Proof.
  intros fbs reqs HO HRo q w r Hq Hr. pose proof (running_settled os x running) as HR. pose proof (proj1 (settled_plain os)) as HP.
  destruct (dispatched W (settled os) (without x) (one_by_one mus r) HR HP (mutated_sorted reqs q r HRo Hq Hr)) as (h & r1 & HD & HW).
  pose proof (dispatch_ordinary W (settled os) fbs _ h r1 HO HD) as Hh.
  destruct (same_request w r) as (k & E1 & E2). rewrite E1.
  destruct (HW w) as [[E _]|(e & r2 & E & _)]; rewrite E in E2; injection E2 as <-.
  - apply Ta_update; [exact route_harmless|apply Hh].
  - apply Ta_update; [exact route_harmless|]. apply Ta_update; [apply set_error_harmless|apply Hh].
Qed.
Lemma mutated_runs : forall reqs q r more w v resp w1 r', MutatedRoutable os mus reqs -> In q reqs -> Shows (q_head q) r ->
  HRun more (on_request x w r) r v resp w1 r' -> exists h r1, Dispatch (settled os) (one_by_one mus r) h r1 /\ HRun more (h w r1) r1 v resp w1 r'.
Proof.
  intros reqs q r more w v resp w1 r' HRo Hq Hr (v' & HS). pose proof (running_settled os x running) as HR. pose proof (proj1 (settled_plain os)) as HP.
  destruct (dispatched W (settled os) (without x) (one_by_one mus r) HR HP (mutated_sorted reqs q r HRo Hq Hr)) as (h & r1 & HD & HW).
  exists h, r1. split; [exact HD|]. exists v'. destruct (same_request w r) as (k & E1 & E2). rewrite E1 in HS. inversion HS as [| | |g k0 ? ? ? ? ? HS2| | | |]; subst. cbn beta in HS2.
  rewrite (mutated_first W x r), same_mus in HS2.
  destruct (HW w) as [[E Ef]|(e & r2 & E & Ef & E3)]; rewrite E in E2; injection E2 as <-.
  - rewrite Ef in HS2. exact HS2.
  - inversion HS2; subst. congruence || (rewrite Ef in *; assumption).
Qed.
End Strip.
