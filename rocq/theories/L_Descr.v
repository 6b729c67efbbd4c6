(* Lemmas for C103. *)
From Verif Require Import M_Base M_Status M_Method M_Proto M_Client M_KeyValue M_Query M_Request M_Parser M_Response
  M_Serializer M_Descr S_KeyValue S_Response S_Descr L_Base L_Exact4.

Lemma ho_ops_app os os' h : ho_ops (os ++ os') h = match ho_ops os h with Some h' => ho_ops os' h' | None => None end.
Proof. revert h. induction os as [|o os IH]; intros h; cbn [app ho_ops]; [reflexivity|]. destruct (ho_op o h); [apply IH|reflexivity]. Qed.
(* the attachment is what it was, unless the call sets it *)
Lemma att_kept o f g : resp_op o f = Some g -> ~ Resets o -> f_att g = f_att f.
Proof.
  intros H N. destruct o; cbn [resp_op] in H; try (injection H as <-; reflexivity).
  - revert H. unfold resp_header. destruct (equal_fold k _); [destruct vs; intros H; [discriminate|injection H as <-; reflexivity]|].
    destruct (equal_fold k _); [destruct vs; intros H; [discriminate|injection H as <-; reflexivity]|]. intros H. injection H as <-. reflexivity.
  - revert f H. induction hs as [|[k vs] hs IH]; intros f H; cbn [resp_headers] in H; [injection H as <-; reflexivity|].
    destruct (resp_header k vs f) as [f'|] eqn:E; [|discriminate]. rewrite (IH (fun X => N ltac:(destruct X as [(? & ? & ? & X)|[(? & X)|X]]; discriminate X)) f' H).
    revert E. unfold resp_header. destruct (equal_fold k _); [destruct vs; intros E; [discriminate|injection E as <-; reflexivity]|].
    destruct (equal_fold k _); [destruct vs; intros E; [discriminate|injection E as <-; reflexivity]|]. intros E. injection E as <-. reflexivity.
  - injection H as <-. destruct r; [reflexivity..|]. exfalso. apply N. left. eexists _, _, _. reflexivity.
  - exfalso. apply N. right. left. eexists. reflexivity.
  - injection H as <-. unfold resp_json, resp_try_json. assert (E : forall l g, f_att (fold_left (fun g b => resp_write b g) l g) = f_att g).
    { induction l as [|b l IH]; intros g; cbn [fold_left]; [reflexivity|]. rewrite IH. reflexivity. }
    destruct e as [[h| |m]|]; exact (E ps (set_rbody [] f)).
  - injection H as <-. destruct e as [[h| |m]|]; reflexivity.
  - exfalso. apply N. right. right. reflexivity.
Qed.
Definition handsb (o : rop) : Prop := (exists p ev n, o = RFile p (FFile ev n)) \/ (exists a, o = RAttachment (Some a)).
Lemma hands_over_spec o : hands_over o = true <-> handsb o.
Proof.
  split.
  - destruct o; cbn; try discriminate; [destruct r; cbn; try discriminate; intros _; left; eexists _, _, _; reflexivity|].
    destruct a; [intros _; right; eexists; reflexivity|discriminate].
  - intros [(p & ev & n & ->)|(a & ->)]; reflexivity.
Qed.
Lemma in_vain_spec o : opens_in_vain o = true <-> Untaken o.
Proof.
  split.
  - destruct o; cbn; try discriminate. destruct r; cbn; try discriminate; intros _; exists p; auto.
  - intros (p & [->| ->]); reflexivity.
Qed.
Lemma resets_dec o : Resets o \/ ~ Resets o.
Proof.
  destruct o; try (right; intros [(? & ? & ? & X)|[(? & X)|X]]; discriminate X).
  - destruct r; try (right; intros [(? & ? & ? & X)|[(? & X)|X]]; discriminate X). left. left. eexists _, _, _. reflexivity.
  - left. right. left. eexists. reflexivity.
  - left. right. right. reflexivity.
Qed.
Lemma nth_last {A} (l : list A) x i o : nth_error (l ++ [x]) i = Some o -> (nth_error l i = Some o /\ (i < List.length l)%nat) \/ (i = List.length l /\ o = x).
Proof.
  intros H. destruct (Nat.lt_ge_cases i (List.length l)) as [L|L].
  - rewrite nth_error_app1 in H by exact L. left. split; assumption.
  - rewrite nth_error_app2 in H by exact L. right. destruct (i - List.length l) as [|k] eqn:E; [|destruct k; discriminate H].
    injection H as ->. split; [lia|reflexivity].
Qed.
(* what is known after any calls *)
Record Known (os : list rop) (h : holding) : Prop := {
  k_next : ho_next h = List.length os;
  k_none : f_att (ho_fields h) = None -> ho_now h = None;
  k_some : f_att (ho_fields h) <> None -> ho_now h <> None;
  k_now : forall i, ho_now h = Some i <-> (Last os i /\ exists o, nth_error os i = Some o /\ handsb o);
  k_lost : forall i, In i (ho_lost h) <->
    exists o, nth_error os i = Some o /\ (Untaken o \/ (handsb o /\ exists j o', (i < j)%nat /\ nth_error os j = Some o' /\ Resets o'))
}.
Lemma hands_resets o : handsb o -> Resets o.
Proof. intros [H|(a & ->)]; [left; exact H|right; left; eexists; reflexivity]. Qed.
Lemma untaken_keeps o : Untaken o -> ~ Resets o.
Proof. intros (p & [->| ->]) [(? & ? & ? & X)|[(? & X)|X]]; discriminate X. Qed.
Lemma hands_att o f g : resp_op o f = Some g -> handsb o -> f_att g <> None.
Proof. intros H [(p & ev & n & ->)|(a & ->)]; injection H as <-; discriminate. Qed.
Lemma resets_att o f g : resp_op o f = Some g -> Resets o -> ~ handsb o -> f_att g = None.
Proof.
  intros H [X|[(a & ->)| ->]] N; [exfalso; apply N; left; exact X| |injection H as <-; reflexivity].
  destruct a; [exfalso; apply N; right; eexists; reflexivity|]. injection H as <-. reflexivity.
Qed.
Lemma hands_dec o : handsb o \/ ~ handsb o.
Proof. destruct (hands_over o) eqn:E; [left; apply hands_over_spec; exact E|right; intros H; apply hands_over_spec in H; congruence]. Qed.
Lemma in_option_list i n : In i (option_list n) <-> n = Some i.
Proof. destruct n as [j|]; cbn; split; [intros [->|[]]; reflexivity|intros H; injection H as ->; left; reflexivity|intros []|discriminate]. Qed.
Lemma known_op os h o h' : Known os h -> ho_op o h = Some h' -> Known (os ++ [o]) h'.
Proof.
  intros K H. unfold ho_op in H. destruct (resp_op o (ho_fields h)) as [g|] eqn:E; [|discriminate]. destruct K as [K1 K2 K3 K4 K5].
  assert (LastOld : forall i, i < List.length os -> (Last (os ++ [o]) i <-> Last os i /\ ~ Resets o)).
  { intros i Li. split.
    - intros (o1 & N1 & R1 & A). rewrite nth_error_app1 in N1 by exact Li. split.
      + exists o1. split; [exact N1|]. split; [exact R1|]. intros j o' Lj Nj. apply (A j o' Lj). rewrite nth_error_app1; [exact Nj|]. apply nth_error_Some. congruence.
      + apply (A (List.length os) o Li). rewrite nth_error_app2, Nat.sub_diag by apply Nat.le_refl. reflexivity.
    - intros ((o1 & N1 & R1 & A) & NR). exists o1. split; [rewrite nth_error_app1 by exact Li; exact N1|]. split; [exact R1|].
      intros j o' Lj Nj. apply nth_last in Nj. destruct Nj as [[Nj _]|[_ ->]]; [exact (A j o' Lj Nj)|exact NR]. }
  assert (LastNew : Last (os ++ [o]) (List.length os) <-> Resets o).
  { split.
    - intros (o1 & N1 & R1 & _). rewrite nth_error_app2, Nat.sub_diag in N1 by apply Nat.le_refl. injection N1 as ->. exact R1.
    - intros R. exists o. split; [rewrite nth_error_app2, Nat.sub_diag by apply Nat.le_refl; reflexivity|]. split; [exact R|].
      intros j o' Lj Nj. apply nth_last in Nj. destruct Nj as [[_ L]|[L _]]; lia. }
  assert (NowIs : forall i, ho_now h = Some i -> exists o1, nth_error os i = Some o1 /\ handsb o1 /\ i < List.length os).
  { intros i Hi. apply K4 in Hi. destruct Hi as [_ (o1 & N1 & H1)]. exists o1. split; [exact N1|]. split; [exact H1|]. apply nth_error_Some. congruence. }
  (* the readers lost before, and those lost by a reset *)
  assert (LostSame : ~ Resets o -> forall i, (exists o1, nth_error (os ++ [o]) i = Some o1 /\ (Untaken o1 \/ (handsb o1 /\ exists j o', (i < j)%nat /\ nth_error (os ++ [o]) j = Some o' /\ Resets o'))) <->
     In i (ho_lost h) \/ (i = List.length os /\ Untaken o)).
  { intros NR i. split.
    - intros (o1 & N1 & D). apply nth_last in N1. destruct N1 as [[N1 L1]|[-> ->]].
      + left. apply K5. exists o1. split; [exact N1|]. destruct D as [D|(D & j & o' & Lj & Nj & Rj)]; [left; exact D|].
        apply nth_last in Nj. destruct Nj as [[Nj _]|[_ ->]]; [|contradiction]. right. split; [exact D|]. exists j, o'. repeat split; assumption.
      + destruct D as [D|(D & _)]; [right; split; [reflexivity|exact D]|]. exfalso. exact (NR (hands_resets _ D)).
    - intros [D|[-> D]].
      + apply K5 in D. destruct D as (o1 & N1 & D). assert (L1 : i < List.length os) by (apply nth_error_Some; congruence). exists o1.
        split; [rewrite nth_error_app1 by exact L1; exact N1|]. destruct D as [D|(D & j & o' & Lj & Nj & Rj)]; [left; exact D|]. right. split; [exact D|].
        exists j, o'. split; [exact Lj|]. split; [|exact Rj]. rewrite nth_error_app1; [exact Nj|]. apply nth_error_Some. congruence.
      + exists o. split; [rewrite nth_error_app2, Nat.sub_diag by apply Nat.le_refl; reflexivity|]. left. exact D. }
  assert (LostReset : Resets o -> forall i, (exists o1, nth_error (os ++ [o]) i = Some o1 /\ (Untaken o1 \/ (handsb o1 /\ exists j o', (i < j)%nat /\ nth_error (os ++ [o]) j = Some o' /\ Resets o'))) <->
     In i (ho_lost h) \/ ho_now h = Some i).
  { intros R i. split.
    - intros (o1 & N1 & D). apply nth_last in N1. destruct N1 as [[N1 L1]|[-> ->]].
      + destruct D as [D|(D & _)]; [left; apply K5; exists o1; split; [exact N1|left; exact D]|].
        assert (C : (exists j o', i < j /\ nth_error os j = Some o' /\ Resets o') \/ Last os i).
        { clear - N1 D. revert i o1 N1 D. induction os as [|x l IH] using rev_ind; intros i o1 N1 D; [destruct i; discriminate N1|].
          apply nth_last in N1. destruct N1 as [[N1 L1]|[-> ->]].
          - destruct (resets_dec x) as [RX|RX].
            + left. exists (List.length l), x. split; [exact L1|]. split; [rewrite nth_error_app2, Nat.sub_diag by apply Nat.le_refl; reflexivity|exact RX].
            + destruct (IH i o1 N1 D) as [(j & o' & Lj & Nj & Rj)|(o2 & N2 & R2 & A)].
              * left. exists j, o'. split; [exact Lj|]. split; [rewrite nth_error_app1; [exact Nj|apply nth_error_Some; congruence]|exact Rj].
              * right. exists o2. split; [rewrite nth_error_app1; [exact N2|exact L1]|]. split; [exact R2|]. intros j o' Lj Nj. apply nth_last in Nj.
                destruct Nj as [[Nj _]|[_ ->]]; [exact (A j o' Lj Nj)|exact RX].
          - right. exists x. split; [rewrite nth_error_app2, Nat.sub_diag by apply Nat.le_refl; reflexivity|]. split; [exact (hands_resets _ D)|].
            intros j o' Lj Nj. apply nth_last in Nj. destruct Nj as [[_ L]|[L _]]; lia. }
        destruct C as [(j & o' & Lj & Nj & Rj)|C].
        * left. apply K5. exists o1. split; [exact N1|]. right. split; [exact D|]. exists j, o'. repeat split; assumption.
        * right. apply K4. split; [exact C|]. exists o1. split; assumption.
      + destruct D as [D|(D & j & o' & Lj & Nj & _)]; [exfalso; exact (untaken_keeps _ D R)|]. apply nth_last in Nj. destruct Nj as [[_ L]|[L _]]; lia.
    - intros [D|D].
      + apply K5 in D. destruct D as (o1 & N1 & D). assert (L1 : i < List.length os) by (apply nth_error_Some; congruence). exists o1.
        split; [rewrite nth_error_app1 by exact L1; exact N1|]. destruct D as [D|(D & j & o' & Lj & Nj & Rj)]; [left; exact D|]. right. split; [exact D|].
        exists j, o'. split; [exact Lj|]. split; [|exact Rj]. rewrite nth_error_app1; [exact Nj|]. apply nth_error_Some. congruence.
      + destruct (NowIs i D) as (o1 & N1 & H1 & L1). exists o1. split; [rewrite nth_error_app1 by exact L1; exact N1|]. right. split; [exact H1|].
        exists (List.length os), o. split; [exact L1|]. split; [rewrite nth_error_app2, Nat.sub_diag by apply Nat.le_refl; reflexivity|exact R]. }
  destruct (hands_over o) eqn:EH.
  - pose proof (proj1 (hands_over_spec o) EH) as Hb. pose proof (hands_resets o Hb) as HR.
    replace (opens_in_vain o) with false in H by (symmetry; destruct (opens_in_vain o) eqn:EV; [|reflexivity]; apply in_vain_spec in EV; exfalso; exact (untaken_keeps o EV HR)).
    injection H as <-. constructor; cbn [ho_fields ho_now ho_lost ho_next].
    + rewrite K1, app_length. cbn. lia.
    + intros X. exfalso. exact (hands_att o _ g E Hb X).
    + discriminate.
    + intros i. rewrite K1. split.
      * intros X. injection X as <-. split; [apply LastNew; exact HR|]. exists o. split; [rewrite nth_error_app2, Nat.sub_diag by apply Nat.le_refl; reflexivity|exact Hb].
      * intros [L (o1 & N1 & _)]. apply nth_last in N1. destruct N1 as [[_ L1]|[-> _]]; [|reflexivity]. apply (LastOld i L1) in L. destruct L as [_ L]. contradiction.
    + intros i. rewrite in_app_iff, in_option_list. symmetry. apply LostReset. exact HR.
  - assert (Hb : ~ handsb o) by (intros X; apply hands_over_spec in X; congruence).
    destruct (resets_dec o) as [HR|HR].
    + rewrite (resets_att o _ g E HR Hb) in H.
      replace (opens_in_vain o) with false in H by (symmetry; destruct (opens_in_vain o) eqn:EV; [|reflexivity]; apply in_vain_spec in EV; exfalso; exact (untaken_keeps o EV HR)).
      injection H as <-. constructor; cbn [ho_fields ho_now ho_lost ho_next].
      * rewrite K1, app_length. cbn. lia.
      * reflexivity.
      * intros X. exfalso. apply X. exact (resets_att o _ g E HR Hb).
      * intros i. split; [discriminate|]. intros [L (o1 & N1 & H1)]. apply nth_last in N1. destruct N1 as [[_ L1]|[-> ->]]; [|contradiction].
        apply (LastOld i L1) in L. destruct L as [_ L]. contradiction.
      * intros i. rewrite in_app_iff, in_option_list. symmetry. apply LostReset. exact HR.
    + pose proof (att_kept o _ g E HR) as EA.
      assert (Hn : (match f_att g with None => (None, (if opens_in_vain o then ho_lost h ++ [ho_next h] else ho_lost h) ++ option_list (ho_now h))
                    | Some _ => (ho_now h, if opens_in_vain o then ho_lost h ++ [ho_next h] else ho_lost h) end) =
                   (ho_now h, if opens_in_vain o then ho_lost h ++ [ho_next h] else ho_lost h)).
      { rewrite EA. destruct (f_att (ho_fields h)) eqn:EF; [reflexivity|]. rewrite (K2 eq_refl). cbn [option_list]. rewrite app_nil_r. reflexivity. }
      rewrite Hn in H. clear Hn. injection H as <-. constructor; cbn [ho_fields ho_now ho_lost ho_next].
      * rewrite K1, app_length. cbn. lia.
      * rewrite EA. exact K2.
      * rewrite EA. exact K3.
      * intros i. split.
        -- intros X. destruct (NowIs i X) as (o1 & N1 & H1 & L1). apply K4 in X. destruct X as [L _]. split; [apply (LastOld i L1); split; assumption|].
           exists o1. split; [rewrite nth_error_app1 by exact L1; exact N1|exact H1].
        -- intros [L (o1 & N1 & H1)]. apply nth_last in N1. destruct N1 as [[N1 L1]|[-> ->]]; [|contradiction]. apply (LastOld i L1) in L. destruct L as [L _].
           apply K4. split; [exact L|]. exists o1. split; assumption.
      * intros i. rewrite (LostSame HR i). destruct (opens_in_vain o) eqn:EV.
        -- pose proof (proj1 (in_vain_spec o) EV) as U. rewrite in_app_iff, K1. cbn. split; [intros [X|[X|[]]]; [left; exact X|right; split; [lia|exact U]]|intros [X|[X _]]; [left; exact X|right; left; lia]].
        -- split; [left; assumption|]. intros [X|[_ X]]; [exact X|]. apply in_vain_spec in X. congruence.
Qed.
Theorem known os f h : f_att f = None -> ho_ops os (ho_new f) = Some h -> Known os h.
Proof.
  intros Hf. revert h. induction os as [|o os IH] using rev_ind; intros h H.
  - injection H as <-. constructor; cbn; try tauto; try congruence.
    + intros i. split; [discriminate|]. intros [_ (o & N & _)]. destruct i; discriminate N.
    + intros i. split; [intros []|]. intros (o & N & _). destruct i; discriminate N.
  - rewrite ho_ops_app in H. destruct (ho_ops os (ho_new f)) as [h1|] eqn:E; [|discriminate]. cbn [ho_ops] in H. destruct (ho_op o h1) as [h2|] eqn:E2; [|discriminate].
    injection H as <-. exact (known_op os h1 o h2 (IH h1 eq_refl) E2).
Qed.
Lemma brings_cases o : Brings o -> Untaken o \/ handsb o.
Proof.
  intros [(p & r & -> & N)|(a & -> & _)]; [|right; right; eexists; reflexivity].
  destruct r; [contradiction|left; exists p; auto|left; exists p; auto|right; left; eexists _, _, _; reflexivity].
Qed.
Lemma untaken_hands o : Untaken o -> ~ handsb o.
Proof. intros U H. exact (untaken_keeps o U (hands_resets o H)). Qed.
Theorem lost_exactly os f h i o : f_att f = None -> ho_ops os (ho_new f) = Some h -> nth_error os i = Some o -> Brings o ->
  (In i (ho_lost h) <-> Untaken o \/ exists j o', (i < j)%nat /\ nth_error os j = Some o' /\ Resets o') /\
  (ho_now h = Some i <-> ~ In i (ho_lost h)).
Proof.
  intros Hf H N Br. pose proof (known os f h Hf H) as [_ _ _ K4 K5].
  assert (L : In i (ho_lost h) <-> Untaken o \/ exists j o', (i < j)%nat /\ nth_error os j = Some o' /\ Resets o').
  { rewrite K5. split.
    - intros (o1 & N1 & D). rewrite N in N1. injection N1 as <-. destruct D as [D|[_ D]]; [left|right]; exact D.
    - intros D. exists o. split; [exact N|]. destruct D as [D|D]; [left; exact D|]. destruct (brings_cases o Br) as [U|Hb]; [left; exact U|right; split; assumption]. }
  split; [exact L|]. rewrite L, K4. split.
  - intros [(o1 & N1 & R1 & A) (o2 & N2 & H2)] [U|(j & o' & Lj & Nj & Rj)].
    + rewrite N in N2. injection N2 as <-. exact (untaken_hands o U H2).
    + exact (A j o' Lj Nj Rj).
  - intros D. destruct (brings_cases o Br) as [U|Hb]; [exfalso; apply D; left; exact U|]. split; [|exists o; split; assumption].
    exists o. split; [exact N|]. split; [exact (hands_resets o Hb)|]. intros j o' Lj Nj Rj. apply D. right. exists j, o'. repeat split; assumption.
Qed.
(* the attachment of the response is the one the call brought *)
Lemma att_is os f h i : f_att f = None -> ho_ops os (ho_new f) = Some h -> ho_now h = Some i ->
  exists o a, nth_error os i = Some o /\ f_att (ho_fields h) = Some a /\ (o = RAttachment (Some a) \/ exists p ev n, o = RFile p (FFile ev n) /\ a = Att ev n true 0).
Proof.
  intros Hf. revert h. induction os as [|o os IH] using rev_ind; intros h H Hi.
  - injection H as <-. discriminate Hi.
  - rewrite ho_ops_app in H. destruct (ho_ops os (ho_new f)) as [h1|] eqn:E; [|discriminate]. cbn [ho_ops] in H. destruct (ho_op o h1) as [h2|] eqn:E2; [|discriminate].
    injection H as <-. pose proof (known os f h1 Hf E) as K. pose proof (k_next _ _ K) as K1. unfold ho_op in E2. destruct (resp_op o (ho_fields h1)) as [g|] eqn:EO; [|discriminate].
    destruct (hands_over o) eqn:EH.
    + injection E2 as <-. cbn [ho_now ho_fields] in *. injection Hi as <-. rewrite K1. pose proof (proj1 (hands_over_spec o) EH) as Hb.
      destruct Hb as [(p & ev & n & ->)|(a & ->)]; injection EO as <-; eexists _, _; (split; [rewrite nth_error_app2, Nat.sub_diag by apply Nat.le_refl; reflexivity|]); (split; [reflexivity|]);
        [right; eexists _, _, _; split; reflexivity|left; reflexivity].
    + assert (Hb : ~ handsb o) by (intros X; apply hands_over_spec in X; congruence). destruct (f_att g) as [a|] eqn:EG; [|injection E2 as <-; discriminate Hi].
      injection E2 as <-. cbn [ho_now ho_fields] in *. destruct (IH h1 eq_refl Hi) as (o1 & a1 & N1 & A1 & D).
      assert (HR : ~ Resets o) by (intros R; rewrite (resets_att o _ g EO R Hb) in EG; discriminate EG).
      exists o1, a1. split; [rewrite nth_error_app1; [exact N1|apply nth_error_Some; congruence]|]. split; [rewrite (att_kept o _ g EO HR); exact A1|exact D].
Qed.
Theorem closed_exactly os f h i o p r s c res cl : f_att f = None -> ho_ops os (ho_new f) = Some h -> nth_error os i = Some o -> Brings o ->
  ho_write p r h s c = (res, cl) ->
  (cl = Some i <-> ~ In i (ho_lost h) /\ r_method r <> HEAD /\ write_ok c /\ res <> WPanic /\ res <> WStuck).
Proof.
  intros Hf H N Br W. destruct (lost_exactly os f h i o Hf H N Br) as [_ L]. unfold ho_write in W.
  destruct (write_response p r (ho_fields h) s c) as [[[res' s'] c'] f'] eqn:EW. injection W as -> <-.
  destruct (f_att (ho_fields h)) as [a|] eqn:EA.
  - destruct (attachment_closes p r (ho_fields h) a s c res s' c' f' EA EW) as (a' & EA' & D). rewrite EA'. destruct D as [(D1 & D2 & D3 & D4 & D5 & D6)|(D & D6)].
    + rewrite D6, (proj2 (Nat.ltb_lt _ _) (Nat.lt_succ_diag_r _)). rewrite L. tauto.
    + rewrite D6, Nat.ltb_irrefl. split; [discriminate|]. intros (X1 & X2 & X3 & X4 & X5). exfalso. apply D. repeat (split; [assumption|]).
      apply L in X1. destruct (att_is os f h i Hf H X1) as (o1 & a1 & N1 & A1 & C). rewrite N in N1. injection N1 as <-. rewrite EA in A1. injection A1 as <-.
      destruct C as [->|(q & ev & n & _ & ->)]; [|reflexivity]. destruct Br as [(q & rr & X & _)|(a2 & X & Hc)]; [discriminate X|]. injection X as <-. exact Hc.
  - split; [discriminate|]. intros (X1 & _). apply L in X1. pose proof (k_none _ _ (known os f h Hf H) EA). congruence.
Qed.
