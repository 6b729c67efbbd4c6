(* Lemmas: applications of the built-in router whose handlers may take over connections. *)
From Verif Require Import M_Base M_Status M_Method M_Proto M_KeyValue M_Query M_Request M_Parser M_Client M_Body
  M_Response M_Serializer M_Suit M_Path M_Radix M_Router S_Static S_KeyValue S_Chunk S_Head S_Parser S_Body S_Response S_Conn S_Split S_Routes S_Router
  S_Serve S_Mutators S_Mutated S_Upgrade S_Takeover S_Takeover2 L_Serve L_Mutators L_Mutated L_Upgrade L_Takeover L_Takeover2.

Section App.
Variable W : Type.
Notation ops := (list (list nat * rop W)).
Variable os : ops.
Variable x : runtime W.
Hypothesis running : Running os x.
Hypothesis harmless_mus : HarmlessMutators os.
Variable mus : list (request -> request).
Hypothesis in_order : InOrder os [] mus.
Lemma dispatch_willing : forall (os : ops) fbs r h r1, WillingApp fbs os -> Dispatch os r h r1 -> forall w, Willing fbs (h w r1).
Proof.
  intros os' fbs r h r1 (O1 & O2 & O3) H. destruct H as [r0 R r1 m h a Ha HP HR Hm HA|r0 R r1 a|r0 R r1 a|r0 p h ps Ha HN HPO Hps Hi Hp Hl|r0 ps].
  - intros w. destruct HP as [_ _|p t parts ps _ _ _ _ _ _|_ _ _]; [eapply O1; exact HR|eapply O1; exact HR|contradiction].
  - intros w. apply O3. auto.
  - intros w. apply Fr_ret. intros f E. injection E as <-. apply Sd_plain. reflexivity.
  - intros w. eapply O2; [exact Hi|exact Hp].
  - intros w. apply O3. auto.
Qed.
Theorem app_willing : forall fbs reqs, WillingApp fbs (settled os) -> MutatedRoutable os mus reqs ->
  forall q w r, In q reqs -> Shows (q_head q) r -> Willing fbs (on_request x w r).
Proof.
  intros fbs reqs HO HRo q w r Hq Hr. pose proof (running_settled W os x running) as HR. pose proof (proj1 (settled_plain W os)) as HP.
  destruct (dispatched W (settled os) (without x) (one_by_one mus r) HR HP (mutated_sorted W os x running mus reqs q r HRo Hq Hr)) as (h & r1 & HD & HW).
  pose proof (dispatch_willing (settled os) fbs _ h r1 HO HD) as Hh.
  destruct (same_request W os x running mus in_order w r) as (k & E1 & E2). rewrite E1.
  destruct (HW w) as [[E _]|(e & r2 & E & _)]; rewrite E in E2; injection E2 as <-.
  - apply Fr_update; [exact (route_harmless W os x running harmless_mus)|apply Hh].
  - apply Fr_update; [exact (route_harmless W os x running harmless_mus)|]. apply Fr_update; [apply set_error_harmless|apply Hh].
Qed.
Lemma app_runs : forall reqs q r more rest w v o r' m', MutatedRoutable os mus reqs -> In q reqs -> Shows (q_head q) r ->
  FSteps more rest (on_request x w r) r (Open v) o r' m' -> exists f r1, Dispatch (settled os) (one_by_one mus r) f r1 /\ FSteps more rest (f w r1) r1 (Open v) o r' m'.
Proof.
  intros reqs q r more rest w v o r' m' HRo Hq Hr HS. pose proof (running_settled W os x running) as HR. pose proof (proj1 (settled_plain W os)) as HP.
  destruct (dispatched W (settled os) (without x) (one_by_one mus r) HR HP (mutated_sorted W os x running mus reqs q r HRo Hq Hr)) as (h & r1 & HD & HW).
  exists h, r1. split; [exact HD|]. destruct (same_request W os x running mus in_order w r) as (k & E1 & E2). rewrite E1 in HS. inversion HS; subst. cbn beta in *.
  match goal with K : FSteps _ _ k _ _ _ _ _ |- _ => rename K into HS2 end.
  rewrite (mutated_first W x r), (same_mus W os x running mus in_order) in HS2.
  destruct (HW w) as [[E Ef]|(e & r2 & E & Ef & E3)]; rewrite E in E2; injection E2 as <-.
  - rewrite Ef in HS2. exact HS2.
  - inversion HS2; subst. congruence || (rewrite Ef in *; assumption).
Qed.
Lemma app_seized : forall CS defs reqs tail past ups (st st1 : conn CS (world W)), MutatedRoutable os mus reqs ->
  Seized defs (Answered (on_request x)) (GivenAs (on_request x)) reqs tail past ups st st1 ->
  Seized defs (MutatedTo os mus) (DispatchedAs os mus) reqs tail past ups st st1.
Proof.
  intros CS defs reqs tail past ups st st1 HRo (before & q & after & outs & w1 & h & r & resp & r' & v & evs & wrote & Q1 & Q2 & (Q3 & ->) & Q4 & Q5 & Q6).
  assert (Hq : In q reqs) by (rewrite Q1; apply in_or_app; right; left; reflexivity).
  destruct (app_runs reqs q r _ _ w1 _ _ r' _ HRo Hq Q3 Q4) as (f & r1 & D1 & D2).
  exists before, q, after, outs, w1, (f w1 r1), r1, resp, r', v, evs, wrote. split; [exact Q1|]. split.
  { eapply exchange_answers; [|exact Q2]. intros w q0 resp0 w0 r0' Hi (r0 & S & R).
    assert (Hq0 : In q0 reqs) by (rewrite Q1; apply in_or_app; left; exact Hi).
    destruct (mutated_runs W os x running mus in_order reqs q0 r0 _ w _ resp0 w0 r0' HRo Hq0 S R) as (h0 & r2 & X1 & X2).
    exists r0, h0, r2. auto. }
  split; [exists r, f; auto|]. auto.
Qed.
End App.
Theorem app_connection : forall CS cparse encoded fresh inside,
  DecoderOk CS cparse encoded fresh inside -> forall max, (max < two64)%Z ->
  forall cfg umax kmax vmax fbs defs, distinct_names defs ->
  forall W (os : list (list nat * rop W)) x mus, Running os x -> InOrder os [] mus -> HarmlessMutators os -> WillingApp fbs (settled os) ->
  forall reqs past ups (st : conn CS (world W)) tail, MutatedRoutable os mus reqs ->
  Amid umax kmax vmax fbs defs fresh past ups st ->
  Forall (SoundRequest encoded (cfg_limits cfg umax kmax vmax) max) reqs ->
  Unfinished (cfg_limits cfg umax kmax vmax) tail ->
  stream (k_client st) = concat (map wire reqs) ++ tail ->
  (exists n st1, Seized defs (MutatedTo os mus) (DispatchedAs os mus) reqs tail past ups st st1 /\
    forall fuel, (n <= fuel)%nat -> serve cparse max cfg (on_request x) (on_error x) fuel st = (EndHijack, st1)) \/
  exists n outs closed st1,
    Exchange defs (MutatedTo os mus) reqs (k_world st) past ups outs (k_world st1) closed /\
    cl_out (k_client st1) = cl_out (k_client st) ++ outs /\
    forall fuel, (n <= fuel)%nat ->
      serve cparse max cfg (on_request x) (on_error x) fuel st =
      close_with cparse max (on_error x) (match closed with None => EndRead | Some _ => EndWrite end) st1.
Proof.
  intros CS cparse encoded fresh inside HD max Hmax cfg umax kmax vmax fbs defs Hdefs W os x mus HR HI HM HO reqs past ups st tail HRo HB HG HU HS.
  destruct (free_connection CS cparse encoded fresh inside HD max Hmax cfg umax kmax vmax fbs defs Hdefs (world W) (on_request x) (on_error x) reqs past ups st tail
    (app_willing W os x HR HM mus HI fbs reqs HO HRo) HB HG HU HS) as [(n & st1 & C1 & C2)|(n & outs & closed & st1 & C1 & C2 & C3)].
  - left. exists n, st1. split; [|exact C2]. apply (app_seized W os x HR mus HI CS defs reqs tail past ups st st1 HRo C1).
  - right. exists n, outs, closed, st1. split; [|auto]. eapply exchange_answers; [|exact C1].
    intros w q resp w1 r' Hi (r & S & R). destruct (mutated_runs W os x HR mus HI reqs q r _ w _ resp w1 r' HRo Hi S R) as (h & r1 & D1 & D2).
    exists r, h, r1. auto.
Qed.
