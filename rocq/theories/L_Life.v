(* Lemmas behind P_Life.v. *)
From Verif Require Import M_Base M_App M_Server M_Life S_Server S_Life L_Server L_Server2.

Lemma lacts_app : forall srcs hs a b l, lacts srcs hs (a ++ b) l = match lacts srcs hs a l with Some l' => lacts srcs hs b l' | None => None end.
Proof. intros srcs hs. induction a as [|x a IH]; intros b l; cbn [app lacts]; [reflexivity|]. destruct (ldo srcs hs x l); [apply IH|reflexivity]. Qed.
(* an invariant of the steps so far and the state *)
Lemma lives_inv : forall srcs hs (I : list lact -> life -> Prop) l0, I [] l0 ->
  (forall al l a l', I al l -> lacts srcs hs al l0 = Some l -> ldo srcs hs a l = Some l' -> I (al ++ [a]) l') ->
  forall al l, lacts srcs hs al l0 = Some l -> I al l.
Proof.
  intros srcs hs I l0 H0 HS. induction al as [|a al IH] using rev_ind; intros l H.
  - cbn in H. injection H as <-. exact H0.
  - rewrite lacts_app in H. destruct (lacts srcs hs al l0) as [l1|] eqn:E; [|discriminate]. cbn [lacts] in H.
    destruct (ldo srcs hs a l1) as [l2|] eqn:E2; [|discriminate]. injection H as <-. exact (HS al l1 a l2 (IH l1 eq_refl) E E2).
Qed.

(* the shapes of a step *)
Inductive kstep (srcs : list source) (hs : hooks) (l : life) : lact -> life -> Prop :=
| Ks_serve : forall r, f_phase l = FOver r ->
    kstep srcs hs l KServe (Life (FBind srcs) [] None (Sys (MSpawn 0) false [] (filter waiting (y_calls (f_sys l)))) (f_old l ++ [f_sys l]) [])
| Ks_fail : forall src todo, f_phase l = FBind (src :: todo) -> f_sends l = [] -> kstep srcs hs l (KBind None) (set_phase (FOver None) l)
| Ks_bind : forall src todo d, f_phase l = FBind (src :: todo) -> f_sends l = [] ->
    kstep srcs hs l (KBind (Some d)) (call_hook hs (HBind (so_addr src)) (FBind todo) (Sys (y_main (f_sys l)) (y_silent (f_sys l)) (y_srvs (f_sys l) ++ [new_srv d]) (y_calls (f_sys l))) l)
| Ks_bound : f_phase l = FBind [] -> f_sends l = [] -> kstep srcs hs l KMain (set_phase FRun l)
| Ks_ret : f_phase l = FRun -> f_sends l = [] -> y_main (f_sys l) = MRet -> kstep srcs hs l KMain (set_phase (FOver (f_err l)) l)
| Ks_start : forall i s, f_phase l = FRun -> f_sends l = [] -> y_main (f_sys l) = MSpawn i -> do AMain (f_sys l) = Some s -> y_main s = MRecv ->
    kstep srcs hs l KMain (call_hook hs HStart FRun s l)
| Ks_stop : forall s, f_phase l = FRun -> f_sends l = [] -> y_main (f_sys l) = MHook -> do AMain (f_sys l) = Some s -> y_main s = MRet ->
    kstep srcs hs l KMain (call_hook hs HStop FRun s l)
| Ks_main : forall s, f_phase l = FRun -> f_sends l = [] -> do AMain (f_sys l) = Some s -> y_main s <> MRecv -> y_main s <> MRet ->
    (forall i, y_main (f_sys l) = MSpawn i -> exists j, y_main s = MSpawn j) -> (Told (f_sys l) -> Told s) ->
    kstep srcs hs l KMain (set_fsys s l)
| Ks_run : forall a s, a <> AMain -> do a (f_sys l) = Some s -> received a (f_sys l) = None -> y_main s = y_main (f_sys l) ->
    kstep srcs hs l (KRun a) (set_fsys s l)
| Ks_take : forall a s e, a <> AMain -> do a (f_sys l) = Some s -> received a (f_sys l) = Some e -> f_phase l = FRun -> f_sends l = [] ->
    y_main (f_sys l) = MRecv -> y_main s = after e -> kstep srcs hs l (KRun a) (set_err e (set_fsys s l))
| Ks_old : forall k a s s', nth_error (f_old l) k = Some s -> do a s = Some s' -> a <> AMain -> (forall i, a <> ATakeLoop i) -> (forall i, a <> ATakeCall i) -> (forall j, a <> ACall j) ->
    kstep srcs hs l (KOld k a) (Life (f_phase l) (f_sends l) (f_err l) (f_sys l) (upd (f_old l) k (fun _ => s')) (f_log l))
| Ks_take_old : forall k i s e, f_phase l = FRun -> f_sends l = [] -> y_main (f_sys l) = MRecv -> nth_error (f_old l) k = Some s -> received (ATakeLoop i) s = Some e ->
    kstep srcs hs l (KTakeOld k i) (set_err e (Life FRun [] (f_err l) (set_main (after e) (f_sys l)) (upd (f_old l) k (upd_srv i (set_loop LEnd))) (f_log l))).
Lemma ldo_step : forall srcs hs a l l', ldo srcs hs a l = Some l' -> kstep srcs hs l a l'.
Proof.
  intros srcs hs a l l' H. destruct a as [|r| |a|k a|k i]; cbn [ldo] in H.
  - destruct (f_phase l) eqn:E; try discriminate. injection H as <-. exact (Ks_serve _ _ _ _ E).
  - destruct (f_phase l) as [[|src todo]| |] eqn:E; try discriminate. destruct (f_sends l) eqn:Es; [|discriminate].
    destruct r as [d|]; injection H as <-; [exact (Ks_bind _ _ _ _ _ _ E Es)|exact (Ks_fail _ _ _ _ _ E Es)].
  - destruct (f_phase l) as [[|src todo]| |r] eqn:E; try discriminate; destruct (f_sends l) eqn:Es; try discriminate.
    + injection H as <-. exact (Ks_bound _ _ _ E Es).
    + destruct (y_main (f_sys l)) as [i| |i|i|i|i| |] eqn:Em; try (destruct (do AMain (f_sys l)) as [s|] eqn:Ed; [|discriminate]).
      * assert (Ed' := Ed). cbn [do] in Ed'. unfold main_step in Ed'. rewrite Em in Ed'. destruct (Nat.ltb i (List.length (y_srvs (f_sys l)))) eqn:El; rewrite ?El in *; injection Ed' as <-; injection H as <-.
        -- apply Ks_main; try assumption; try discriminate; [intros j _; eexists; reflexivity|intros T; exact (told_step _ _ _ T Ed)].
        -- eapply Ks_start; try eassumption; reflexivity.
      * exfalso. cbn [do] in Ed. unfold main_step in Ed. rewrite Em in Ed. discriminate.
      * injection H as <-. pose proof (do_main _ _ _ Ed) as M. apply Ks_main; try assumption; [| |intros j X; congruence|intros T; exact (told_step _ _ _ T Ed)]; inversion M; congruence.
      * injection H as <-. pose proof (do_main _ _ _ Ed) as M. apply Ks_main; try assumption; [| |intros j X; congruence|intros T; exact (told_step _ _ _ T Ed)]; inversion M; congruence.
      * injection H as <-. pose proof (do_main _ _ _ Ed) as M. apply Ks_main; try assumption; [| |intros j X; congruence|intros T; exact (told_step _ _ _ T Ed)]; inversion M; congruence.
      * injection H as <-. pose proof (do_main _ _ _ Ed) as M. apply Ks_main; try assumption; [| |intros j X; congruence|intros T; exact (told_step _ _ _ T Ed)]; inversion M; congruence.
      * injection H as <-. apply (Ks_stop _ _ _ s); try assumption. pose proof (do_main _ _ _ Ed) as M. inversion M; congruence.
      * injection H as <-. apply Ks_ret; assumption.
  - destruct (do a (f_sys l)) as [s|] eqn:Ed; [|destruct a; discriminate].
    assert (Na : a <> AMain) by (intros ->; discriminate).
    assert (H' : match received a (f_sys l) with None => Some (set_fsys s l) | Some e => match f_phase l with FRun => match f_sends l with [] => Some (set_err e (set_fsys s l)) | _ => None end | _ => None end end = Some l') by (destruct a; try exact H; congruence). clear H.
    pose proof (do_main _ _ _ Ed) as M. destruct (received a (f_sys l)) as [e|] eqn:Er.
    + destruct (f_phase l) eqn:E; try discriminate. destruct (f_sends l) eqn:Es; [|discriminate]. injection H' as <-.
      destruct a; cbn [received] in Er; try discriminate.
      * destruct (y_main (f_sys l)) eqn:Em; cbn [do] in Ed; rewrite Em in Ed; try discriminate. destruct (nth_error (y_srvs (f_sys l)) i) as [v|] eqn:Ev; [|discriminate].
        destruct (v_loop v) eqn:El; try discriminate. injection Er as <-. injection Ed as <-. eapply Ks_take; try assumption; cbn [do received]; rewrite ?Em, ?Ev, ?El; reflexivity.
      * destruct (y_main (f_sys l)) eqn:Em; cbn [do] in Ed; rewrite Em in Ed; try discriminate. destruct (nth_error (y_calls (f_sys l)) j) as [[|e'|]|] eqn:Ev; try discriminate.
        injection Er as <-. injection Ed as <-. eapply Ks_take; try assumption; cbn [do received]; rewrite ?Em, ?Ev; reflexivity.
    + injection H' as <-. apply Ks_run; try assumption. revert Er Na M. clear. intros Er Na M. remember (y_main s) as m eqn:Em. clear Em. destruct M; try reflexivity; try contradiction; exfalso; cbn [received] in Er;
        match goal with H : nth_error _ _ = _ |- _ => rewrite H in Er end; try discriminate; match goal with H : v_loop _ = _ |- _ => rewrite H in Er end; discriminate.
  - destruct (nth_error (f_old l) k) as [s|] eqn:Ek; [|destruct a; discriminate].
    assert (G : match do a s with Some s' => Some (Life (f_phase l) (f_sends l) (f_err l) (f_sys l) (upd (f_old l) k (fun _ => s')) (f_log l)) | None => None end = Some l' /\
                a <> AMain /\ (forall i, a <> ATakeLoop i) /\ (forall i, a <> ATakeCall i) /\ (forall j, a <> ACall j)) by (destruct a; try discriminate; (split; [exact H|]); repeat split; discriminate).
    destruct G as (G & N1 & N2 & N3 & N4). destruct (do a s) as [s'|] eqn:Ed; [|discriminate]. injection G as <-. eapply Ks_old; eassumption.
  - destruct (f_phase l) eqn:E; try discriminate. destruct (f_sends l) eqn:Es; [|discriminate]. destruct (y_main (f_sys l)) eqn:Em; try discriminate.
    destruct (nth_error (f_old l) k) as [s|] eqn:Ek; [|discriminate]. destruct (received (ATakeLoop i) s) as [e|] eqn:Er; [|discriminate]. injection H as <-. eapply Ks_take_old; eassumption.
Qed.

(* ---- the hooks ---- *)
Definition LogOk (srcs : list source) (l : life) : Prop :=
  match f_phase l with
  | FOver None => exists done rest, srcs = done ++ rest /\ f_log l = binds done /\ List.length (y_srvs (f_sys l)) = List.length done /\ (y_srvs (f_sys l) <> [] -> y_main (f_sys l) = MSpawn 0)
  | FOver (Some _) => f_log l = all_hooks srcs /\ y_main (f_sys l) = MRet /\ f_sends l = [] /\ List.length (y_srvs (f_sys l)) = List.length srcs
  | FBind todo => exists done, srcs = done ++ todo /\ f_log l = binds done /\ List.length (y_srvs (f_sys l)) = List.length done /\ y_main (f_sys l) = MSpawn 0 /\ f_err l = None
  | FRun => List.length (y_srvs (f_sys l)) = List.length srcs /\
      match y_main (f_sys l) with
      | MSpawn _ => f_log l = binds srcs /\ f_err l = None
      | MRecv => f_log l = binds srcs ++ [HStart] /\ f_err l = None
      | MRet => f_log l = all_hooks srcs /\ f_err l <> None
      | _ => f_log l = binds srcs ++ [HStart] /\ f_err l <> None
      end
  end.
Lemma binds_app : forall a b, binds (a ++ b) = binds a ++ binds b.
Proof. intros. apply map_app. Qed.
Lemma after_told : forall e, (exists i, after e = MPause i) \/ (exists i, after e = MStop i).
Proof. intros []; cbn; eauto. Qed.
Lemma log_step : forall srcs hs a l l', LogOk srcs l -> kstep srcs hs l a l' -> LogOk srcs l'.
Proof.
  intros srcs hs a l l' HL HK.
  destruct HK as [r Hp|src todo Hp Hs|src todo d Hp Hs|Hp Hs|Hp Hs Hm|i s Hp Hs Hm Hd Hm'|s Hp Hs Hm Hd Hm'|s Hp Hs Hd N1 N2 Hsp Ht
    |a s Na Hd Hr Hm|a s e Na Hd Hr Hp Hs Hm Hm'|k a s s' Hk Hd N1 N2 N3 N4|k i s e Hp Hs Hm Hk Hr]; unfold LogOk in *.
  - exists []. repeat split.
  - rewrite Hp in HL. destruct HL as (done & E1 & E2 & E3 & E4 & E5). cbn [set_phase f_phase f_log f_sys]. exists done, (src :: todo). auto.
  - rewrite Hp in HL. destruct HL as (done & E1 & E2 & E3 & E4 & E5). cbn [call_hook f_phase f_log f_sys f_err y_srvs y_main]. exists (done ++ [src]).
    rewrite binds_app, !app_length, E2, E3, E1, <- app_assoc. auto.
  - rewrite Hp in HL. destruct HL as (done & E1 & E2 & E3 & E4 & E5). rewrite app_nil_r in E1. cbn [set_phase f_phase f_log f_sys f_err]. rewrite E4, E1. auto.
  - rewrite Hp, Hm in HL. destruct HL as (E1 & E2 & E3). cbn [set_phase f_phase f_log f_sys f_err f_sends]. destruct (f_err l); [|congruence]. auto.
  - rewrite Hp, Hm in HL. destruct HL as (E1 & E2 & E3). cbn [call_hook f_phase f_log f_sys f_err]. rewrite (do_length _ _ _ Hd), Hm', E2. auto.
  - rewrite Hp, Hm in HL. destruct HL as (E1 & E2 & E3). cbn [call_hook f_phase f_log f_sys f_err]. rewrite (do_length _ _ _ Hd), Hm', E2. unfold all_hooks. rewrite <- app_assoc. auto.
  - rewrite Hp in HL. destruct HL as (E1 & E2). cbn [set_fsys f_phase f_log f_sys f_err]. rewrite Hp, (do_length _ _ _ Hd). split; [exact E1|].
    assert (K : Told (f_sys l) \/ ~ Told (f_sys l)) by apply told_dec.
    pose proof (do_main _ _ _ Hd) as HM. remember (y_main s) as m eqn:Em. clear Em Hd. remember AMain as x eqn:Ex.
    destruct HM as [a N1' N2' N3'|j Hj Lj|j Hj Lj|j Hj _|j Hj _|j u Hj _ _|j Hj _|j Hj _|j Hj _|j u Hj _ _|j Hj _|Hj|j u e Hj _ _|j e Hj _]; try rewrite Hj in E2; try exact E2; try congruence.
  - cbn [set_fsys f_phase f_log f_sys f_err f_sends]. rewrite Hm, (do_length _ _ _ Hd). destruct (f_phase l) as [todo| |[e|]]; try exact HL.
    destruct HL as (done & rest & E1 & E2 & E4 & E3). exists done, rest. split; [exact E1|]. split; [exact E2|]. split; [exact E4|]. intros N. apply E3. intros E. apply N. apply length_zero_iff_nil. rewrite (do_length _ _ _ Hd), E. reflexivity.
  - rewrite Hp, Hm in HL. destruct HL as (E1 & E2 & E3). cbn [set_err set_fsys f_phase f_log f_sys f_err f_sends]. rewrite Hp, Hm', (do_length _ _ _ Hd). split; [exact E1|].
    destruct (after_told e) as [(i & ->)|(i & ->)]; split; try exact E2; discriminate.
  - exact HL.
  - rewrite Hp, Hm in HL. destruct HL as (E1 & E2 & E3). cbn [set_err set_main f_phase f_log f_sys f_err f_sends y_main y_srvs]. split; [exact E1|].
    destruct (after_told e) as [(j & ->)|(j & ->)]; split; try exact E2; discriminate.
Qed.
Lemma log_from : forall srcs hs l0 al l, LogOk srcs l0 -> lacts srcs hs al l0 = Some l -> LogOk srcs l.
Proof.
  intros srcs hs l0 al l H0 H. apply (lives_inv srcs hs (fun _ l => LogOk srcs l) l0) with (al := al); [exact H0| |exact H].
  intros al1 l1 a l2 H1 _ H2. exact (log_step srcs hs a l1 l2 H1 (ldo_step _ _ _ _ _ H2)).
Qed.
Lemma log_start : forall srcs stops, LogOk srcs (life_start stops).
Proof. intros srcs stops. cbn. exists [], srcs. repeat split. congruence. Qed.
Lemma log_lives : forall srcs hs stops al l, Lives srcs hs stops al l -> LogOk srcs l.
Proof. intros srcs hs stops al l H. exact (log_from srcs hs _ al l (log_start srcs stops) H). Qed.

(* ---- what the goroutines of a run are up to ---- *)
Lemma counts_one_more : forall s d, Counts s -> y_main s = MSpawn 0 -> Counts (Sys (y_main s) (y_silent s) (y_srvs s ++ [new_srv d]) (y_calls s)).
Proof.
  intros s d HC Hm k v Hv. cbn [y_srvs y_main] in *. destruct (Nat.lt_ge_cases k (List.length (y_srvs s))) as [L|L].
  - rewrite nth_error_app1 in Hv by exact L. exact (HC k v Hv).
  - rewrite nth_error_app2 in Hv by exact L. destruct (k - List.length (y_srvs s))%nat as [|n]; [|destruct n; discriminate]. injection Hv as <-. rewrite Hm.
    split; [reflexivity|]. split; [intros []|]. split; [intros []|]. split; [intros _; exists 0%nat; split; [reflexivity|lia]|reflexivity].
Qed.
Lemma counts_take : forall s e, Counts s -> y_main s = MRecv -> Counts (set_main (after e) s).
Proof.
  intros s e HC Hm k v Hv. cbn [set_main y_srvs y_main] in *. destruct (HC k v Hv) as (A & _ & _ & D). rewrite Hm in D.
  split; [exact A|]. assert (N : forall i, after e <> MSpawn i) by (intros i; destruct e; discriminate).
  split; [destruct e; cbn; intros; try lia; contradiction|]. split; [destruct e; cbn; contradiction|].
  split; [intros E; apply D in E; destruct E as (i & E & _); discriminate|intros (i & E & _); exfalso; exact (N i E)].
Qed.
Lemma counts_lives : forall srcs hs stops al l, Lives srcs hs stops al l -> Counts (f_sys l).
Proof.
  intros srcs hs stops al l H. apply (lives_inv srcs hs (fun _ l => Counts (f_sys l)) (life_start stops)) with (al := al); [| |exact H].
  - intros [|k] v Hv; discriminate.
  - intros al1 l1 a l2 HC H1 H2. pose proof (log_lives srcs hs stops al1 l1 H1) as HL. apply ldo_step in H2. 
    destruct H2 as [r Hp|src todo Hp Hs|src todo d Hp Hs|Hp Hs|Hp Hs Hm|i s Hp Hs Hm Hd Hm'|s Hp Hs Hm Hd Hm'|s Hp Hs Hd N1 N2 Hsp Ht
    |a s Na Hd Hr Hm|a s e Na Hd Hr Hp Hs Hm Hm'|k a s s' Hk Hd N1 N2 N3 N4|k i s e Hp Hs Hm Hk Hr]; cbn [set_phase call_hook set_fsys set_err f_sys];
      try exact HC; try exact (counts_step _ _ _ HC Hd).
    + intros [|k] v Hv; discriminate.
    + unfold LogOk in HL. rewrite Hp in HL. destruct HL as (done & _ & _ & _ & E & _). exact (counts_one_more _ d HC E).
    + exact (counts_take _ e HC Hm).
Qed.

(* ---- why run stopped ---- *)
Definition SilentOk (s : sys) : Prop := forall k v, nth_error (y_srvs s) k = Some v -> v_shutdown v = true \/ v_loop v = LSwap SNil \/ v_loop v = LSend SNil -> Told s.
Lemma silent_step : forall s a s', SilentOk s -> do a s = Some s' -> SilentOk s'.
Proof.
  intros s a s' HS H k v' Hv' Hb. destruct (do_srv s a s' k v' H Hv') as (v & Hv & HV). assert (K : Told s -> Told s') by (intros T; exact (told_step s a s' T H)).
  destruct (told_dec s') as [T|NT]; [exact T|]. assert (NS : ~ Told s) by auto. assert (No : ~ (v_shutdown v = true \/ v_loop v = LSwap SNil \/ v_loop v = LSend SNil)) by (intros X; exact (NS (HS k v Hv X))).
  exfalso. destruct HV as [a|Hm|Hm|Hm|Hl|Hl|Hl|e Hl|Hl _ _|Hl|h Hh|e Hm Hl]; fields_in; try (apply No; tauto); try (apply No; left; destruct Hb as [|[|]]; congruence).
  - apply NS. split; rewrite Hm; discriminate.
  - destruct (v_shutdown v); [tauto|]. destruct Hb as [|[|]]; discriminate.
  - destruct (y_silent s); destruct Hb as [Hb|[Hb|Hb]]; try discriminate; try tauto. injection Hb as ->. tauto.
Qed.
Definition carries (v : srv) (e : serr) : Prop := v_loop v = LSwap e \/ v_loop v = LSend e.
Definition ReasonOk (stops : list serr) (al : list lact) (l : life) : Prop :=
  (forall k v e, nth_error (y_srvs (f_sys l)) k = Some v -> carries v e -> e = SNil \/ (e = SAccept /\ AcceptFailed al)) /\
  (forall c e, In c (y_calls (f_sys l)) -> c = CNew e \/ c = CSend e -> In e stops) /\
  (forall e, f_err l = Some e \/ f_phase l = FOver (Some e) -> In e stops \/ (e = SAccept /\ AcceptFailed al) \/ TakesOld al) /\
  SilentOk (f_sys l).
Lemma vstep_carries : forall s k v a v' e, vstep s k v a v' -> carries v' e -> carries v e \/ e = SNil \/ (e = SAccept /\ exists i, a = AFail i).
Proof.
  intros s k v a v' e H C. unfold carries in *. destruct H as [a|Hm|Hm|Hm|Hl|Hl|Hl|e' Hl|Hl _ _|Hl|h Hh|e' Hm Hl]; fields_in; try (left; exact C); try (destruct C; discriminate).
  - destruct (v_shutdown v); destruct C as [C|C]; try discriminate. injection C as <-. auto.
  - destruct (y_silent s); destruct C as [C|C]; try discriminate. injection C as <-. auto.
  - destruct C as [C|C]; [|discriminate]. injection C as <-. eauto.
Qed.
Lemma in_upd : forall A (l : list A) i f x, In x (upd l i f) -> In x l \/ exists y, nth_error l i = Some y /\ x = f y.
Proof.
  intros A l. induction l as [|z l IH]; intros i f x H; [destruct i; contradiction|]. destruct i as [|i]; cbn [upd] in H.
  - destruct H as [<-|H]; [right; exists z; auto|left; right; exact H].
  - destruct H as [<-|H]; [left; left; reflexivity|]. destruct (IH i f x H) as [K|(y & K)]; [left; right; exact K|right; exists y; exact K].
Qed.
Lemma do_call_in : forall s a s' c e, do a s = Some s' -> In c (y_calls s') -> c = CNew e \/ c = CSend e -> exists c', In c' (y_calls s) /\ (c' = CNew e \/ c' = CSend e).
Proof.
  intros s a s' c e H Hi Hc. assert (Same : y_calls s' = y_calls s -> exists c', In c' (y_calls s) /\ (c' = CNew e \/ c' = CSend e)) by (intros E; rewrite E in Hi; eauto).
  apply In_nth_error in Hi. destruct Hi as (j & Hj). pose proof (do_calls s a s' j H) as HC. rewrite Hj in HC.
  inversion HC as [E|e' Ha He E|e' Ha Hm He E]; [exists c; split; [eapply nth_error_In; exact E|exact Hc]| |].
  - subst c. destruct Hc as [Hc|Hc]; [discriminate|]. injection Hc as <-. exists (CNew e'). split; [eapply nth_error_In; exact He|auto].
  - subst c. destruct Hc; discriminate.
Qed.
Lemma reason_sys : forall stops al a l s, ReasonOk stops al l -> do a (f_sys l) = Some s -> (forall i, a = AFail i -> AcceptFailed (al ++ [KRun a])) -> forall x, x = KRun a \/ a = AMain ->
  (forall k v e, nth_error (y_srvs s) k = Some v -> carries v e -> e = SNil \/ (e = SAccept /\ AcceptFailed (al ++ [x]))) /\
  (forall c e, In c (y_calls s) -> c = CNew e \/ c = CSend e -> In e stops) /\ SilentOk s.
Proof.
  intros stops al a l s (R1 & R2 & R3 & R4) Hd Ha x Hx. split; [|split; [|exact (silent_step _ _ _ R4 Hd)]].
  - intros k v' e Hv' C. destruct (do_srv _ _ _ _ _ Hd Hv') as (v & Hv & HV). destruct (vstep_carries _ _ _ _ _ _ HV C) as [C'|[->|(-> & i & E)]].
    + destruct (R1 k v e Hv C') as [->|[-> (i & F)]]; [auto|]. right. split; [reflexivity|]. exists i. apply in_or_app. auto.
    + auto.
    + right. split; [reflexivity|]. destruct Hx as [->| ->]; [exact (Ha i E)|discriminate].
  - intros c e Hi Hc. destruct (do_call_in _ _ _ _ _ Hd Hi Hc) as (c' & Hi' & Hc'). exact (R2 c' e Hi' Hc').
Qed.
Lemma more_failed : forall al b, AcceptFailed al -> AcceptFailed (al ++ b).
Proof. intros al b (i & H). exists i. apply in_or_app. auto. Qed.
Lemma more_old : forall al b, TakesOld al -> TakesOld (al ++ b).
Proof. intros al b (k & i & H). exists k, i. apply in_or_app. auto. Qed.
Lemma reason_err : forall stops al b l e, ReasonOk stops al l -> f_err l = Some e \/ f_phase l = FOver (Some e) -> In e stops \/ (e = SAccept /\ AcceptFailed (al ++ b)) \/ TakesOld (al ++ b).
Proof. intros stops al b l e (_ & _ & R3 & _) H. destruct (R3 e H) as [K|[[K1 K2]|K]]; [auto|right; left; split; [exact K1|exact (more_failed _ _ K2)]|right; right; exact (more_old _ _ K)]. Qed.
Lemma reason_carry : forall stops al b l k v e, ReasonOk stops al l -> nth_error (y_srvs (f_sys l)) k = Some v -> carries v e -> e = SNil \/ (e = SAccept /\ AcceptFailed (al ++ b)).
Proof. intros stops al b l k v e (R1 & _) H C. destruct (R1 k v e H C) as [K|[K1 K2]]; [auto|right; split; [exact K1|exact (more_failed _ _ K2)]]. Qed.
Lemma reason_from : forall srcs hs stops l0 al l, LogOk srcs l0 -> ReasonOk stops [] l0 -> lacts srcs hs al l0 = Some l -> ReasonOk stops al l.
Proof.
  intros srcs hs stops l0 al l HL0 HR0 H. apply (lives_inv srcs hs (ReasonOk stops) l0) with (al := al); [exact HR0| |exact H].
  - intros al1 l1 a l2 HR H1 H2. pose proof (log_from srcs hs l0 al1 l1 HL0 H1) as HL. apply ldo_step in H2.
    destruct H2 as [r Hp|src todo Hp Hs|src todo d Hp Hs|Hp Hs|Hp Hs Hm|i s Hp Hs Hm Hd Hm'|s Hp Hs Hm Hd Hm'|s Hp Hs Hd N1 N2 Hsp Ht
    |a s Na Hd Hr Hm|a s e Na Hd Hr Hp Hs Hm Hm'|k a s s' Hk Hd N1 N2 N3 N4|k i s e Hp Hs Hm Hk Hr]; unfold ReasonOk; cbn [set_phase call_hook set_fsys set_err f_sys f_err f_phase y_srvs y_calls].
    + split; [intros [|k] v e Hv; discriminate|]. split; [|split; [intros e [E|E]; discriminate|intros [|k] v Hv; discriminate]].
      intros c e Hi Hc. apply filter_In in Hi. destruct HR as (_ & R2 & _). exact (R2 c e (proj1 Hi) Hc).
    + split; [intros k v e; apply (reason_carry stops al1 _ l1 k v e HR)|]. split; [exact (proj1 (proj2 HR))|]. split; [|exact (proj2 (proj2 (proj2 HR)))].
      intros e [E|E]; [|discriminate]. exact (reason_err stops al1 _ l1 e HR (or_introl E)).
    + unfold LogOk in HL. rewrite Hp in HL. destruct HL as (done & _ & _ & _ & Em & _).
      assert (New : forall k v, nth_error (y_srvs (f_sys l1) ++ [new_srv d]) k = Some v -> nth_error (y_srvs (f_sys l1)) k = Some v \/ v = new_srv d).
      { intros k v Hv. destruct (Nat.lt_ge_cases k (List.length (y_srvs (f_sys l1)))) as [L|L]; [rewrite nth_error_app1 in Hv by exact L; auto|].
        rewrite nth_error_app2 in Hv by exact L. destruct (k - List.length (y_srvs (f_sys l1)))%nat as [|n]; [|destruct n; discriminate]. injection Hv as <-. auto. }
      split; [|split; [exact (proj1 (proj2 HR))|split]].
      * intros k v e Hv C. destruct (New k v Hv) as [Hv'| ->]; [exact (reason_carry stops al1 _ l1 k v e HR Hv' C)|destruct C; discriminate].
      * intros e [E|E]; [|discriminate]. exact (reason_err stops al1 _ l1 e HR (or_introl E)).
      * intros k v Hv Hb. cbn [y_srvs] in Hv. destruct (New k v Hv) as [Hv'| ->]; [|destruct Hb as [|[|]]; discriminate]. exact (proj2 (proj2 (proj2 HR)) k v Hv' Hb).
    + split; [intros k v e; apply (reason_carry stops al1 _ l1 k v e HR)|]. split; [exact (proj1 (proj2 HR))|]. split; [|exact (proj2 (proj2 (proj2 HR)))].
      intros e [E|E]; [|discriminate]. exact (reason_err stops al1 _ l1 e HR (or_introl E)).
    + split; [intros k v e; apply (reason_carry stops al1 _ l1 k v e HR)|]. split; [exact (proj1 (proj2 HR))|]. split; [|exact (proj2 (proj2 (proj2 HR)))].
      intros e [E|E]; [exact (reason_err stops al1 _ l1 e HR (or_introl E))|]. injection E as E. exact (reason_err stops al1 _ l1 e HR (or_introl E)).
    + destruct (reason_sys stops al1 AMain l1 s HR Hd ltac:(discriminate) KMain (or_intror eq_refl)) as (A & B & C). split; [exact A|]. split; [exact B|]. split; [|exact C].
      intros e [E|E]; [|discriminate]. exact (reason_err stops al1 _ l1 e HR (or_introl E)).
    + destruct (reason_sys stops al1 AMain l1 s HR Hd ltac:(discriminate) KMain (or_intror eq_refl)) as (A & B & C). split; [exact A|]. split; [exact B|]. split; [|exact C].
      intros e [E|E]; [|discriminate]. exact (reason_err stops al1 _ l1 e HR (or_introl E)).
    + destruct (reason_sys stops al1 AMain l1 s HR Hd ltac:(discriminate) KMain (or_intror eq_refl)) as (A & B & C). split; [exact A|]. split; [exact B|]. split; [|exact C].
      intros e E. exact (reason_err stops al1 _ l1 e HR E).
    + destruct (reason_sys stops al1 a l1 s HR Hd) with (x := KRun a) as (A & B & C); [intros i ->; exists i; apply in_or_app; right; left; reflexivity|auto|]. split; [exact A|]. split; [exact B|]. split; [|exact C].
      intros e E. exact (reason_err stops al1 _ l1 e HR E).
    + destruct (reason_sys stops al1 a l1 s HR Hd) with (x := KRun a) as (A & B & C); [intros i ->; exists i; apply in_or_app; right; left; reflexivity|auto|]. split; [exact A|]. split; [exact B|]. split; [|exact C].
      intros e' [E|E]; [|congruence]. injection E as <-. destruct HR as (R1 & R2 & R3 & R4). destruct a; cbn [received] in Hr; try discriminate.
      * destruct (nth_error (y_srvs (f_sys l1)) i) as [v|] eqn:Ev; [|discriminate]. destruct (v_loop v) as [| | | | |e0|e0|] eqn:El; try discriminate. injection Hr as ->.
        destruct (R1 i v e Ev (or_intror El)) as [->|[-> F]]; [|right; left; split; [reflexivity|exact (more_failed _ _ F)]].
        exfalso. destruct (R4 i v Ev (or_intror (or_intror El))) as [_ X]. exact (X Hm).
      * destruct (nth_error (y_calls (f_sys l1)) j) as [[e0|e0|]|] eqn:Ec; try discriminate. injection Hr as ->. left. apply (R2 (CSend e) e); [eapply nth_error_In; exact Ec|auto].
    + split; [intros k' v e; apply (reason_carry stops al1 _ l1 k' v e HR)|]. split; [exact (proj1 (proj2 HR))|]. split; [|exact (proj2 (proj2 (proj2 HR)))].
      intros e E. exact (reason_err stops al1 _ l1 e HR E).
    + split; [intros k' v e'; apply (reason_carry stops al1 _ l1 k' v e' HR)|]. split; [exact (proj1 (proj2 HR))|]. split.
      * intros e' _. right. right. exists k, i. apply in_or_app. right. left. reflexivity.
      * intros k' v Hv Hb. destruct (after_told e) as [(j & E)|(j & E)]; split; cbn [set_main y_main]; rewrite E; discriminate.
Qed.
Lemma reason_lives : forall srcs hs stops al l, Lives srcs hs stops al l -> ReasonOk stops al l.
Proof.
  intros srcs hs stops al l H. apply (reason_from srcs hs stops (life_start stops) al l); [apply log_start| |exact H].
  split; [intros [|k] v e Hv; discriminate|]. split; [|split; [intros e [E|E]; discriminate|intros [|k] v Hv; discriminate]].
  intros c e Hi Hc. cbn in Hi. apply in_map_iff in Hi. destruct Hi as (e' & <- & Hi). destruct Hc as [Hc|Hc]; [|discriminate]. injection Hc as <-. exact Hi.
Qed.
(* the same, of the last Serve alone *)
Lemma lives_split : forall srcs hs stops al1 al2 l, Lives srcs hs stops (al1 ++ al2) l -> exists l1, Lives srcs hs stops al1 l1 /\ lacts srcs hs al2 l1 = Some l.
Proof. intros srcs hs stops al1 al2 l H. unfold Lives in *. rewrite lacts_app in H. destruct (lacts srcs hs al1 (life_start stops)) as [l1|]; [|discriminate]. exists l1. auto. Qed.
Lemma reason_last : forall srcs hs stops al1 al2 l e, Lives srcs hs stops (al1 ++ KServe :: al2) l -> f_phase l = FOver (Some e) ->
  In e stops \/ (e = SAccept /\ AcceptFailed al2) \/ TakesOld al2.
Proof.
  intros srcs hs stops al1 al2 l e H Hp. apply lives_split in H. destruct H as (l1 & H1 & H2). cbn [lacts] in H2. destruct (ldo srcs hs KServe l1) as [l2|] eqn:E; [|discriminate].
  assert (HL : LogOk srcs l2) by (apply (log_step srcs hs KServe l1 l2); [exact (log_lives _ _ _ _ _ H1)|exact (ldo_step _ _ _ _ _ E)]).
  assert (HR : ReasonOk stops [] l2).
  { pose proof (reason_lives srcs hs stops al1 l1 H1) as (_ & R2 & _). cbn [ldo] in E. destruct (f_phase l1); try discriminate. injection E as <-.
    split; [intros [|k] v e' Hv; discriminate|]. split; [|split; [intros e' [E|E]; discriminate|intros [|k] v Hv; discriminate]].
    intros c e' Hi Hc. cbn [f_sys y_calls] in Hi. apply filter_In in Hi. exact (R2 c e' (proj1 Hi) Hc). }
  destruct (reason_from srcs hs stops l2 al2 l HL HR H2) as (_ & _ & R3 & _). exact (R3 e (or_intror Hp)).
Qed.

(* ---- the first Serve ---- *)
Lemma serves_app : forall a b, serves (a ++ b) = (serves a + serves b)%nat.
Proof. induction a as [|x a IH]; intros b; [reflexivity|]. cbn [app serves]. destruct x; rewrite IH; reflexivity. Qed.
Lemma takes_app : forall a b, TakesOld (a ++ b) <-> TakesOld a \/ TakesOld b.
Proof.
  intros a b. split; [intros (k & i & H); apply in_app_or in H; destruct H; [left|right]; exists k, i; assumption|].
  intros [(k & i & H)|(k & i & H)]; exists k, i; apply in_or_app; auto.
Qed.
Lemma takes_one : forall a, TakesOld [a] -> exists k i, a = KTakeOld k i.
Proof. intros a (k & i & [H|[]]). exists k, i. exact H. Qed.
Lemma do_nobody : forall a s, y_srvs s = [] -> a <> AMain -> (forall i, a <> ATakeCall i) -> (forall j, a <> ACall j) -> do a s = None.
Proof.
  intros a s E N1 N3 N4. destruct a; try congruence; cbn [do]; rewrite ?E; try (destruct i; reflexivity).
  - destruct (y_main s); try reflexivity. destruct i; reflexivity.
Qed.
Definition First (al : list lact) (l : life) : Prop :=
  (serves al = 0%nat -> f_old l = [] /\ f_phase l = FOver None /\ y_srvs (f_sys l) = [] /\ ~ TakesOld al) /\
  (serves al = 1%nat -> (exists s, f_old l = [s] /\ y_srvs s = []) /\ ~ TakesOld al).
Lemma first_lives : forall srcs hs stops al l, Lives srcs hs stops al l -> First al l.
Proof.
  intros srcs hs stops al l H. apply (lives_inv srcs hs First (life_start stops)) with (al := al); [| |exact H].
  - split; [|discriminate]. intros _. repeat split. intros (k & i & []).
  - intros al1 l1 a l2 [F0 F1] _ H2. apply ldo_step in H2. unfold First. rewrite serves_app. 
    assert (Mono : (forall k i, a <> KTakeOld k i) -> ~ TakesOld al1 -> ~ TakesOld (al1 ++ [a])).
    { intros Na N T. apply takes_app in T. destruct T as [T|T]; [exact (N T)|]. apply takes_one in T. destruct T as (k & i & T). exact (Na k i T). }
    destruct H2 as [r Hp|src todo Hp Hs|src todo d Hp Hs|Hp Hs|Hp Hs Hm|i s Hp Hs Hm Hd Hm'|s Hp Hs Hm Hd Hm'|s Hp Hs Hd N1 N2 Hsp Ht
    |a s Na Hd Hr Hm|a s e Na Hd Hr Hp Hs Hm Hm'|k a s s' Hk Hd N1 N2 N3 N4|k i s e Hp Hs Hm Hk Hr]; cbn [serves set_phase call_hook set_fsys set_err f_old f_phase f_sys]; rewrite ?Nat.add_0_r;
      try (split; [intros Z; destruct (F0 Z) as (_ & X & _); congruence|intros Z; destruct (F1 Z) as (X & Y); split; [exact X|apply Mono; [discriminate|exact Y]]]; fail).
    + split; [lia|]. intros Z. destruct (F0 ltac:(lia)) as (E & _ & E2 & N). split; [|apply Mono; [discriminate|exact N]]. exists (f_sys l1). rewrite E. auto.
    + split; [|intros Z; destruct (F1 Z) as (X & Y); split; [exact X|apply Mono; [discriminate|exact Y]]].
      intros Z. destruct (F0 Z) as (E & E1 & E2 & N). split; [exact E|]. split; [exact E1|]. split; [|apply Mono; [discriminate|exact N]]. apply length_zero_iff_nil. rewrite (do_length _ _ _ Hd), E2. reflexivity.
    + split; intros Z.
      * destruct (F0 Z) as (E & _). rewrite E in Hk. destruct k; discriminate.
      * exfalso. destruct (F1 Z) as ((s0 & E & E2) & N). rewrite E in Hk. destruct k as [|[|k]]; try discriminate. injection Hk as <-. rewrite (do_nobody a s0 E2 N1 N3 N4) in Hd. discriminate.
    + split; intros Z.
      * destruct (F0 Z) as (E & _). rewrite E in Hk. destruct k; discriminate.
      * exfalso. destruct (F1 Z) as ((s0 & E & E2) & N). rewrite E in Hk. destruct k as [|[|k]]; try discriminate. injection Hk as <-. cbn [received] in Hr. rewrite E2 in Hr. destruct i; discriminate.
Qed.

(* ---- as long as nothing old is received, a run is one of S_Server.v ---- *)
Definition called (c : call) : serr := match c with CNew e | CSend e => e | CBack => SNil end.
Lemma calls_reach : forall m b v cs pre, Forall (fun c => c <> CBack) cs ->
  Reaches (Sys m b v (pre ++ map (fun c => CNew (called c)) cs)) (Sys m b v (pre ++ cs)).
Proof.
  intros m b v cs. induction cs as [|c cs IH]; intros pre HF; [apply reaches_refl|]. apply Forall_cons_iff in HF. destruct HF as [Hc HF].
  specialize (IH (pre ++ [c]) HF). rewrite <- !app_assoc in IH. cbn [app] in IH. cbn [map]. destruct c as [e|e|]; cbn [called] in *; [exact IH| |congruence].
  apply (reaches_step _ (ACall (List.length pre)) (Sys m b v (pre ++ CSend e :: map (fun c => CNew (called c)) cs))); [|exact IH].
  cbn [do y_calls]. rewrite nth_error_app2 by lia. rewrite Nat.sub_diag. cbn [nth_error]. unfold upd_call. cbn [y_main y_silent y_srvs y_calls]. do 2 f_equal. clear.
  induction pre as [|x pre IH]; [reflexivity|]. cbn [app List.length upd]. rewrite IH. reflexivity.
Qed.
Lemma idle_step : forall a ds cs s, do a (Sys (MSpawn 0) false (map new_srv ds) cs) = Some s -> a <> AMain -> Forall (fun c => c <> CBack) cs ->
  exists cs', s = Sys (MSpawn 0) false (map new_srv ds) cs' /\ Forall (fun c => c <> CBack) cs'.
Proof.
  intros a ds cs s H Na HF. assert (N : forall i v, nth_error (map new_srv ds) i = Some v -> v_loop v = LIdle /\ v_handlers v = 0%nat).
  { intros i v Hv. rewrite nth_error_map in Hv. destruct (nth_error ds i); [|discriminate]. injection Hv as <-. split; reflexivity. }
  destruct a as [|i|i|i|i|j|i|j]; cbn [do y_srvs y_main y_calls] in H; try congruence; try discriminate;
    try (destruct (nth_error (map new_srv ds) i) as [v|] eqn:Ev; [|discriminate]; destruct (N i v Ev) as [E1 E2]; rewrite ?E1, ?E2 in H; discriminate).
  destruct (nth_error cs j) as [[e|e|]|] eqn:Ej; try discriminate. injection H as <-. eexists. split; [reflexivity|]. cbn [y_calls]. apply Forall_forall. intros c Hc. apply in_upd in Hc.
  destruct Hc as [Hc|(y & _ & ->)]; [|discriminate]. rewrite Forall_forall in HF. exact (HF c Hc).
Qed.
Definition Runs (al : list lact) (l : life) : Prop := ~ TakesOld al ->
  match f_phase l with
  | FBind _ => exists ds cs, f_sys l = Sys (MSpawn 0) false (map new_srv ds) cs /\ Forall (fun c => c <> CBack) cs
  | FRun | FOver (Some _) => exists ds es, Possible ds es (f_sys l)
  | FOver None => True
  end.
Lemma waiting_left : forall cs, Forall (fun c => c <> CBack) (filter waiting cs).
Proof. intros cs. apply Forall_forall. intros c H. apply filter_In in H. destruct H as [_ H]. intros ->. discriminate. Qed.
Lemma possible_step : forall ds es s a s', Possible ds es s -> do a s = Some s' -> Possible ds es s'.
Proof. intros ds es s a s' H Hd. apply (reaches_trans _ s); [exact H|]. apply (reaches_step _ a s'); [exact Hd|apply reaches_refl]. Qed.
Lemma runs_lives : forall srcs hs stops al l, Lives srcs hs stops al l -> Runs al l.
Proof.
  intros srcs hs stops al l H. apply (lives_inv srcs hs Runs (life_start stops)) with (al := al); [| |exact H].
  - intros _. exact I.
  - intros al1 l1 a l2 HR H1 H2. pose proof (log_lives srcs hs stops al1 l1 H1) as HL. apply ldo_step in H2. intros NT.
    assert (N1 : ~ TakesOld al1) by (intros T; apply NT; exact (more_old _ _ T)). specialize (HR N1).
    destruct H2 as [r Hp|src todo Hp Hs|src todo d Hp Hs|Hp Hs|Hp Hs Hm|i s Hp Hs Hm Hd Hm'|s Hp Hs Hm Hd Hm'|s Hp Hs Hd N2 N3 Hsp Ht
    |a s Na Hd Hr Hm|a s e Na Hd Hr Hp Hs Hm Hm'|k a s s' Hk Hd N2 N3 N4 N5|k i s e Hp Hs Hm Hk Hr]; cbn [set_phase call_hook set_fsys set_err f_phase f_sys]; try rewrite Hp in HR; try rewrite Hp.
    + exists [], (filter waiting (y_calls (f_sys l1))). split; [reflexivity|apply waiting_left].
    + exact I.
    + destruct HR as (ds & cs & E & F). exists (ds ++ [d]), cs. rewrite E. cbn [y_main y_silent y_srvs y_calls]. rewrite map_app. auto.
    + destruct HR as (ds & cs & E & F). exists ds, (map called cs). rewrite E. unfold Possible, sys_start. rewrite map_map. exact (calls_reach _ _ _ cs [] F).
    + unfold LogOk in HL. rewrite Hp, Hm in HL. destruct HL as (_ & _ & X). destruct (f_err l1); [exact HR|congruence].
    + destruct HR as (ds & es & P). exists ds, es. exact (possible_step _ _ _ _ _ P Hd).
    + destruct HR as (ds & es & P). exists ds, es. exact (possible_step _ _ _ _ _ P Hd).
    + destruct HR as (ds & es & P). exists ds, es. exact (possible_step _ _ _ _ _ P Hd).
    + destruct (f_phase l1) as [todo| |[e|]]; [|destruct HR as (ds & es & P); exists ds, es; exact (possible_step _ _ _ _ _ P Hd)..|exact I].
      destruct HR as (ds & cs & E & F). rewrite E in Hd. destruct (idle_step _ _ _ _ Hd Na F) as (cs' & E' & F'). exists ds, cs'. auto.
    + destruct HR as (ds & es & P). exists ds, es. exact (possible_step _ _ _ _ _ P Hd).
    + exact HR.
    + exfalso. apply NT. exists k, i. apply in_or_app. right. left. reflexivity.
Qed.

(* ---- calls made by hooks ---- *)
Definition SendsOk (hs : hooks) (l : life) : Prop := (forall r, f_phase l = FOver r -> f_sends l = []) /\ (f_sends l = [] -> Forall (fun h => hook_calls hs h = []) (f_log l)).
Lemma sends_lives : forall srcs hs stops al l, Lives srcs hs stops al l -> SendsOk hs l.
Proof.
  intros srcs hs stops al l H. apply (lives_inv srcs hs (fun _ l => SendsOk hs l) (life_start stops)) with (al := al); [| |exact H].
  - split; [reflexivity|]. intros _. constructor.
  - intros al1 l1 a l2 [F0 F1] _ H2. apply ldo_step in H2. unfold SendsOk.
    destruct H2 as [r Hp|src todo Hp Hs|src todo d Hp Hs|Hp Hs|Hp Hs Hm|i s Hp Hs Hm Hd Hm'|s Hp Hs Hm Hd Hm'|s Hp Hs Hd N1 N2 Hsp Ht
    |a s Na Hd Hr Hm|a s e Na Hd Hr Hp Hs Hm Hm'|k a s s' Hk Hd N1 N2 N3 N4|k i s e Hp Hs Hm Hk Hr]; cbn [set_phase call_hook set_fsys set_err f_sends f_phase f_log];
      try (split; [intros r' E; congruence || discriminate || auto|auto]; fail).
    all: try (split; [exact F0|exact F1]). all: match goal with |- context [_ ++ [_]] => split; [discriminate|]; intros E; apply Forall_app; split; [exact (F1 Hs)|]; constructor; [exact E|constructor] | _ => split; [congruence|]; intros _; constructor end.
Qed.
Lemma blocked_step : forall srcs hs a l l', (forall r, f_phase l = FOver r -> f_sends l = []) -> f_sends l <> [] -> ldo srcs hs a l = Some l' ->
  f_phase l' = f_phase l /\ f_sends l' = f_sends l /\ f_log l' = f_log l /\ f_err l' = f_err l.
Proof.
  intros srcs hs a l l' H0 HN H2. apply ldo_step in H2.
  destruct H2 as [r Hp|src todo Hp Hs|src todo d Hp Hs|Hp Hs|Hp Hs Hm|i s Hp Hs Hm Hd Hm'|s Hp Hs Hm Hd Hm'|s Hp Hs Hd N1 N2 Hsp Ht
    |a s Na Hd Hr Hm|a s e Na Hd Hr Hp Hs Hm Hm'|k a s s' Hk Hd N1 N2 N3 N4|k i s e Hp Hs Hm Hk Hr]; try contradiction; auto. exfalso. exact (HN (H0 r Hp)).
Qed.
Lemma blocked : forall srcs hs al l l', (forall r, f_phase l = FOver r -> f_sends l = []) -> f_sends l <> [] -> lacts srcs hs al l = Some l' ->
  f_phase l' = f_phase l /\ f_sends l' = f_sends l /\ f_log l' = f_log l /\ f_err l' = f_err l.
Proof.
  intros srcs hs al. induction al as [|a al IH]; intros l l' H0 HN H; cbn [lacts] in H; [injection H as <-; auto|].
  destruct (ldo srcs hs a l) as [l1|] eqn:E; [|discriminate]. destruct (blocked_step srcs hs a l l1 H0 HN E) as (A & B & C & D).
  destruct (IH l1 l') as (A' & B' & C' & D'); [intros r; rewrite A, B; apply H0|congruence|exact H|]. repeat split; congruence.
Qed.

(* ---- the second Serve ---- *)
Definition Stale (i : nat) (e : serr) (s : sys) : Prop := y_main s = MRet /\ loop_at s i = Some (LSend e).
Definition AllEnded (s : sys) : Prop := y_main s = MRet /\ forall k v, nth_error (y_srvs s) k = Some v -> Ended v.
Lemma ret_stays : forall s a s', do a s = Some s' -> y_main s = MRet -> y_main s' = MRet.
Proof.
  intros s a s' H Hm. pose proof (do_main s a s' H) as HM. remember (y_main s') as m eqn:Em. clear Em. destruct HM; congruence.
Qed.
Lemma stale_step : forall i e s a s', do a s = Some s' -> Stale i e s -> Stale i e s'.
Proof.
  intros i e s a s' H [Hm Hl]. split; [exact (ret_stays s a s' H Hm)|]. unfold loop_at in *.
  destruct (nth_error (y_srvs s') i) as [v'|] eqn:Ev'.
  - destruct (do_srv s a s' i v' H Ev') as (v & Hv & HV). rewrite Hv in Hl. cbn [option_map] in *. injection Hl as Hl. f_equal.
    destruct HV as [a|Hm'|Hm'|Hm'|Hl'|Hl'|Hl'|e' Hl'|Hl' _ _|Hl'|h Hh|e' Hm' Hl']; fields_in; congruence.
  - exfalso. apply nth_error_None in Ev'. rewrite (do_length s a s' H) in Ev'. apply nth_error_None in Ev'. rewrite Ev' in Hl. discriminate.
Qed.
Lemma ended_step : forall s a s', do a s = Some s' -> AllEnded s -> AllEnded s'.
Proof.
  intros s a s' H [Hm HE]. split; [exact (ret_stays s a s' H Hm)|]. intros k v' Hv'. destruct (do_srv s a s' k v' H Hv') as (v & Hv & HV). specialize (HE k v Hv). unfold Ended in *.
  destruct HV as [a|Hm'|Hm'|Hm'|Hl'|Hl'|Hl'|e' Hl'|Hl' _ _|Hl'|h Hh|e' Hm' Hl']; fields_in; congruence.
Qed.
(* what is left of a run that returned keeps its invariant while Serve is called again *)
Definition Kept (P : sys -> Prop) (l : life) (al : list lact) (l' : life) : Prop :=
  (serves al = 0%nat -> ~ TakesOld al -> P (f_sys l') /\ List.length (f_old l') = List.length (f_old l) /\ f_phase l' = f_phase l) /\
  (serves al = 1%nat -> ~ TakesOld al -> exists s, nth_error (f_old l') (List.length (f_old l)) = Some s /\ P s /\ List.length (f_old l') = S (List.length (f_old l))).
Lemma kept : forall srcs hs (P : sys -> Prop) l e, (forall s a s', do a s = Some s' -> P s -> P s') -> P (f_sys l) -> f_phase l = FOver (Some e) ->
  forall al l', lacts srcs hs al l = Some l' -> Kept P l al l'.
Proof.
  intros srcs hs P l e HP H0 Hph al l' H. apply (lives_inv srcs hs (Kept P l) l) with (al := al); [| |exact H].
  - split; [intros _ _; auto|discriminate].
  - intros al1 l1 a l2 [F0 F1] _ H2. apply ldo_step in H2. unfold Kept. rewrite serves_app.
    assert (Mono : ~ TakesOld (al1 ++ [a]) -> ~ TakesOld al1) by (intros N T; apply N, takes_app; auto).
    destruct H2 as [r Hp|src todo Hp Hs|src todo d Hp Hs|Hp Hs|Hp Hs Hm|i s Hp Hs Hm Hd Hm'|s Hp Hs Hm Hd Hm'|s Hp Hs Hd N1 N2 Hsp Ht
    |a s Na Hd Hr Hm|a s e' Na Hd Hr Hp Hs Hm Hm'|k a s s' Hk Hd N1 N2 N3 N4|k i s e' Hp Hs Hm Hk Hr]; cbn [serves set_phase call_hook set_fsys set_err f_old f_phase f_sys]; rewrite ?Nat.add_0_r;
      try (split; [intros Z NT; destruct (F0 Z (Mono NT)) as (_ & _ & X); congruence|intros Z NT; exact (F1 Z (Mono NT))]; fail).
    + split; [lia|]. intros Z NT. destruct (F0 ltac:(lia) (Mono NT)) as (X & Y & _). exists (f_sys l1). rewrite nth_error_app2 by lia. rewrite Y, Nat.sub_diag, app_length, Y. cbn. repeat split; auto; lia.
    + split; [|intros Z NT; exact (F1 Z (Mono NT))]. intros Z NT. destruct (F0 Z (Mono NT)) as (X & Y & Z'). split; [exact (HP _ _ _ Hd X)|auto].
    + split; intros Z NT.
      * destruct (F0 Z (Mono NT)) as (X & Y & Z'). rewrite upd_length. auto.
      * destruct (F1 Z (Mono NT)) as (s0 & X & Y & Z'). rewrite upd_length, upd_nth. destruct (Nat.eqb_spec k (List.length (f_old l))) as [->|N].
        -- rewrite X in Hk. injection Hk as <-. rewrite X. cbn [option_map]. exists s'. repeat split; auto. exact (HP _ _ _ Hd Y).
        -- exists s0. repeat split; auto.
    + split; intros Z NT; exfalso; apply NT, takes_app; right; exists k, i; left; reflexivity.
Qed.
Definition Oldest (l : life) : Prop := (f_old l = [] -> f_phase l = FOver None /\ y_srvs (f_sys l) = []) /\ (forall s, nth_error (f_old l) 0 = Some s -> y_srvs s = []).
Lemma oldest_lives : forall srcs hs stops al l, Lives srcs hs stops al l -> Oldest l.
Proof.
  intros srcs hs stops al l H. apply (lives_inv srcs hs (fun _ l => Oldest l) (life_start stops)) with (al := al); [| |exact H].
  - split; [auto|intros s E; discriminate].
  - intros al1 l1 a l2 [F0 F1] _ H2. apply ldo_step in H2. unfold Oldest.
    destruct H2 as [r Hp|src todo Hp Hs|src todo d Hp Hs|Hp Hs|Hp Hs Hm|i s Hp Hs Hm Hd Hm'|s Hp Hs Hm Hd Hm'|s Hp Hs Hd N1 N2 Hsp Ht
    |a s Na Hd Hr Hm|a s e' Na Hd Hr Hp Hs Hm Hm'|k a s s' Hk Hd N1 N2 N3 N4|k i s e' Hp Hs Hm Hk Hr]; cbn [set_phase call_hook set_fsys set_err f_old f_phase f_sys];
      try (split; [intros E; destruct (F0 E); congruence|exact F1]; fail).
    + split; [intros E; destruct (f_old l1); discriminate|]. intros s Hs. destruct (f_old l1) as [|x o] eqn:Eo; [injection Hs as <-; apply F0; reflexivity|]. exact (F1 s Hs).
    + split; [|exact F1]. intros E. destruct (F0 E) as [E1 E2]. split; [exact E1|]. apply length_zero_iff_nil. rewrite (do_length _ _ _ Hd), E2. reflexivity.
    + split; [intros E; exfalso; destruct (f_old l1); [destruct k; discriminate|destruct k; discriminate]|].
      intros s0 Hs0. rewrite upd_nth in Hs0. destruct (Nat.eqb_spec k 0) as [->|N]; [|exact (F1 s0 Hs0)]. rewrite Hk in Hs0. injection Hs0 as <-.
      apply length_zero_iff_nil. rewrite (do_length _ _ _ Hd), (F1 s Hk). reflexivity.
    + split; [intros E; exfalso; destruct (f_old l1); [destruct k; discriminate|destruct k; discriminate]|].
      intros s0 Hs0. rewrite upd_nth in Hs0. destruct (Nat.eqb_spec k 0) as [->|N]; [|exact (F1 s0 Hs0)]. rewrite Hk in Hs0. injection Hs0 as <-.
      cbn [upd_srv y_srvs]. rewrite (F1 s Hk). destruct i; reflexivity.
Qed.
Lemma lives_app : forall srcs hs stops al l al' l', Lives srcs hs stops al l -> lacts srcs hs al' l = Some l' -> Lives srcs hs stops (al ++ al') l'.
Proof. intros srcs hs stops al l al' l' H H'. unfold Lives in *. rewrite lacts_app, H. exact H'. Qed.
Lemma serves_le : forall a b, (serves a <= serves (a ++ b))%nat.
Proof. intros. rewrite serves_app. lia. Qed.
Lemma none_old : forall srcs hs stops al l e al' l', Lives srcs hs stops al l -> serves al = 1%nat -> f_phase l = FOver (Some e) -> AllEnded (f_sys l) ->
  lacts srcs hs al' l = Some l' -> (serves al' <= 1)%nat -> ~ TakesOld al'.
Proof.
  intros srcs hs stops al l e al' l' HL HS Hp HE. revert l'. induction al' as [|a al' IH] using rev_ind; intros l' H Hle; [intros (k & i & [])|].
  rewrite lacts_app in H. destruct (lacts srcs hs al' l) as [l1|] eqn:E1; [|discriminate]. pose proof (serves_le al' [a]) as L. assert (N : ~ TakesOld al') by (apply (IH l1 eq_refl); lia).
  intros T. apply takes_app in T. destruct T as [T|T]; [exact (N T)|]. apply takes_one in T. destruct T as (k & i & ->). cbn [lacts] in H. destruct (ldo srcs hs (KTakeOld k i) l1) as [l2|] eqn:E2; [|discriminate].
  apply ldo_step in E2. inversion E2 as [| | | | | | | | | | |k0 i0 s0 e0 Hp' Hs' Hm' Hk Hr]. subst.
  destruct (kept srcs hs AllEnded l e ended_step HE Hp al' l1 E1) as [K0 K1]. destruct (first_lives srcs hs stops al l HL) as [_ F1]. destruct (F1 HS) as ((x & Ex & _) & _).
  assert (Z : serves al' = 0%nat \/ serves al' = 1%nat) by lia. destruct Z as [Z|Z].
  - destruct (K0 Z N) as (_ & _ & X). congruence.
  - destruct (K1 Z N) as (s & X & [_ Y] & W). rewrite Ex in X, W. cbn [List.length] in X, W.
    destruct (oldest_lives srcs hs stops _ _ (lives_app _ _ _ _ _ _ _ HL E1)) as [_ O]. cbn [received] in Hr.
    destruct k as [|[|k]].
    + rewrite (O s0 Hk) in Hr. destruct i; discriminate.
    + rewrite X in Hk. injection Hk as <-. destruct (nth_error (y_srvs s) i) as [v|] eqn:Ev; [|discriminate]. specialize (Y i v Ev). unfold Ended in Y. rewrite Y in Hr. discriminate.
    + assert (L2 : (S (S k) < List.length (f_old l1))%nat) by (apply nth_error_Some; congruence). lia.
Qed.

(* ---- listeners ---- *)
Definition OpenOk (s : sys) : Prop := (exists i, y_main s = MSpawn i) -> forall k v, nth_error (y_srvs s) k = Some v -> v_closed v = false.
Lemma open_step : forall s a s', do a s = Some s' -> OpenOk s -> OpenOk s'.
Proof.
  intros s a s' H HO (i & Hi) k v' Hv'. pose proof (do_main s a s' H) as HM. rewrite Hi in HM.
  assert (K : exists j, y_main s = MSpawn j) by (inversion HM; eauto; destruct e; discriminate).
  destruct (do_srv s a s' k v' H Hv') as (v & Hv & HV). specialize (HO K k v Hv). destruct K as (j & Ej).
  destruct HV as [a|Hm'|Hm'|Hm'|Hl'|Hl'|Hl'|e' Hl'|Hl' _ _|Hl'|h Hh|e' Hm' Hl']; fields_in; congruence.
Qed.
Lemma open_lives : forall srcs hs stops al l, Lives srcs hs stops al l -> OpenOk (f_sys l).
Proof.
  intros srcs hs stops al l H. apply (lives_inv srcs hs (fun _ l => OpenOk (f_sys l)) (life_start stops)) with (al := al); [| |exact H].
  - intros _ [|k] v Hv; discriminate.
  - intros al1 l1 a l2 HC H1 H2. apply ldo_step in H2.
    destruct H2 as [r Hp|src todo Hp Hs|src todo d Hp Hs|Hp Hs|Hp Hs Hm|i s Hp Hs Hm Hd Hm'|s Hp Hs Hm Hd Hm'|s Hp Hs Hd N1 N2 Hsp Ht
    |a s Na Hd Hr Hm|a s e Na Hd Hr Hp Hs Hm Hm'|k a s s' Hk Hd N1 N2 N3 N4|k i s e Hp Hs Hm Hk Hr]; cbn [set_phase call_hook set_fsys set_err f_sys];
      try exact HC; try exact (open_step _ _ _ Hd HC).
    + intros _ [|k] v Hv; discriminate.
    + intros Hi k v Hv. cbn [y_srvs y_main] in *. destruct (Nat.lt_ge_cases k (List.length (y_srvs (f_sys l1)))) as [L|L]; [rewrite nth_error_app1 in Hv by exact L; exact (HC Hi k v Hv)|].
      rewrite nth_error_app2 in Hv by exact L. destruct (k - List.length (y_srvs (f_sys l1)))%nat as [|n]; [|destruct n; discriminate]. injection Hv as <-. reflexivity.
    + intros (j & Hj). cbn [set_main y_main] in Hj. destruct e; discriminate.
Qed.
