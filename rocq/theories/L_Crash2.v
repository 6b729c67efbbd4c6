(* Lemmas: a process one of whose connections panicked; connections behind Recover. *)
From Verif Require Import M_Base M_Status M_Method M_Proto M_KeyValue M_Query M_Request M_Parser M_Client M_Body
  M_Response M_Serializer M_Suit M_Router M_Middleware M_Bundled M_Many S_KeyValue S_Chunk S_Head S_Parser S_Body S_Response S_Conn S_Bundled S_Crash
  L_Bundled L_Conn2 L_Crash L_ConnProps P_Parser.

Section Process.
Variable CS : Type.
Variable cparse : CS -> bytes -> bool -> CS * (bytes * bytes * option cerr).
Variable max : Z.
Variable cfg : hcfg.
Variable W : Type.
Variable on_request : W -> request -> hprog W.
Variable on_error : W -> request -> http_error -> hprog W.
Notation steps := (M_Many.steps cparse max cfg on_request on_error).
Notation step := (M_Many.step cparse max cfg on_request on_error).

Lemma steps_app : forall l l' m, steps (l ++ l') m = match steps l m with Some m' => steps l' m' | None => None end.
Proof. induction l as [|i l IH]; intros l' m; cbn; [reflexivity|]. destruct (step i m); [apply IH|reflexivity]. Qed.
Lemma put_nth : forall (l : list (slot CS W)) i x y, nth_error l i = Some y -> nth_error (put l i x) i = Some x.
Proof. induction l as [|z l IH]; intros [|i] x y H; cbn in *; try discriminate; [reflexivity|eapply IH; exact H]. Qed.
Lemma put_other : forall (l : list (slot CS W)) i j x, j <> i -> nth_error (put l i x) j = nth_error l j.
Proof. induction l as [|z l IH]; intros [|i] [|j] x H; cbn; try reflexivity; [congruence|]. apply IH. congruence. Qed.
(* a process is dead only after the round that panicked, which was its last *)
(* a process is dead only after the round that panicked, which was its last *)
Lemma dead_last : forall l m m', steps l m = Some m' -> m_dead m = false ->
  (m_dead m' = true <-> exists l0 i m0 st st', l = l0 ++ [i] /\ steps l0 m = Some m0 /\ nth_error (m_slots m0) i = Some (Going st) /\
     M_Many.round cparse max cfg on_request on_error (with_world (m_world m0) st) = inl (EndPanic, st') /\
     nth_error (m_slots m') i = Some (Over EndPanic st') /\
     forall j, j <> i -> nth_error (m_slots m') j = nth_error (m_slots m0) j).
Proof.
  intros l m m' H Hm. destruct l as [|z l1].
  - cbn in H. injection H as <-. rewrite Hm. split; [discriminate|]. intros ([|? l0] & i & m0 & st & st' & E & _); discriminate.
  - assert (X : z :: l1 <> []) by discriminate. destruct (exists_last X) as (l0 & i & E). rewrite E in *. clear E X z l1.
    rewrite steps_app in H. destruct (steps l0 m) as [m0|] eqn:E0; [|discriminate]. cbn [M_Many.steps] in H.
    destruct (step i m0) as [m1|] eqn:E1; [|discriminate]. injection H as ->. unfold M_Many.step in E1.
    destruct (m_dead m0) eqn:Ed; [discriminate|]. destruct (nth_error (m_slots m0) i) as [[st|e st]|] eqn:En; try discriminate.
    split.
    + intros K. exists l0, i, m0, st. destruct (M_Many.round cparse max cfg on_request on_error (with_world (m_world m0) st)) as [[e st']|st'] eqn:Er; injection E1 as <-; cbn in K; [|discriminate].
      destruct e; try discriminate. exists st'. split; [reflexivity|]. split; [exact E0|]. split; [exact En|]. split; [reflexivity|].
      cbn [m_slots]. split; [eapply put_nth; exact En|]. intros j Hj. apply put_other. exact Hj.
    + intros (l2 & i2 & m2 & st2 & st2' & A1 & A2 & A3 & A4 & _). apply app_inj_tail in A1. destruct A1 as [-> ->].
      rewrite E0 in A2. injection A2 as ->. rewrite En in A3. injection A3 as ->. rewrite A4 in E1. injection E1 as <-. reflexivity.
Qed.
Lemma dead_stops : forall l i m m', steps l m = Some m' -> m_dead m' = true -> forall l', steps (l ++ i :: l') m = None.
Proof. intros l i m m' H Hd l'. rewrite steps_app, H. cbn. unfold M_Many.step. rewrite Hd. reflexivity. Qed.
End Process.

(* what a handler behind Recover does *)
Lemma recover_runs : forall W more (next : handler W) w r v resp w' r',
  HRun more (recovering next w r) r v resp w' r' <->
  HRun more (next w r) r v resp w' r' \/
  (exists v', HSteps more (next w r) r v Panics r' v') /\ resp = Some internal_error /\ w' = w.
Proof.
  intros W more next w r v resp w' r'. unfold recovering. split.
  - intros [v' H]. inversion H; subst.
    + match goal with K : HSteps _ (HRet _ _) _ _ _ _ _ |- _ => inversion K; subst end. left. eexists. eassumption.
    + repeat match goal with K : HSteps _ (HRet _ _) _ _ _ _ _ |- _ => inversion K; subst; clear K end. right. split; [eexists; eassumption|]. split; reflexivity.
  - intros [[v' H] | [[v' H] [-> ->]]].
    + exists v'. eapply HS_try; [exact H|]. constructor.
    + exists v'. eapply HS_recover; [exact H|constructor|]. constructor.
Qed.

(* ---- an example ---- *)
(* the second of three requests panics *)
Definition ex_second (w : log) (r : request) : hprog log :=
  if beqb (r_path r) (B "/b") then HCrash else ex_echo w r.
Lemma ex_second_tame : forall w r, Tame (CanBeSent 64) true (ex_second w r).
Proof.
  intros w r. unfold ex_second, ex_echo. destruct (beqb _ _); [apply Ta_crash|]. apply Ta_body. intros o. apply Ta_ret. intros f Hf. injection Hf as <-. apply Sd_plain. reflexivity.
Qed.
