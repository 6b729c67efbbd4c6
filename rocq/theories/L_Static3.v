(* Requests of several connections: those that meet no other request's writes. *)
From Verif Require Import M_Base M_Status M_Method M_Proto M_KeyValue M_Query M_Request M_Response M_Suit M_Path M_Radix M_Router M_Static S_Routes S_Router S_Static S_Static2
  L_Base L_Path L_Router5 L_Router7 L_Static.

Lemma reads_step : forall pp s t, Reads t -> exists t', thread_step pp s t = (s, t') /\ Reads t'.
Proof.
  intros pp s t H. destruct t; try contradiction; cbn [thread_step]; eexists; (split; [reflexivity|]); try exact I. destruct (is_safe _); exact I.
Qed.
Lemma reads_sched : forall pp m i all s ts, ~ In i m -> (forall j, In j m -> In j all) -> Readers all ts ->
  exists ts', sched pp m (s, ts) = (s, ts') /\ Readers all ts' /\ nth_error ts' i = nth_error ts i.
Proof.
  intros pp m i all. induction m as [|j m IH]; intros s ts Hi Hall HR; [exists ts; repeat split; exact HR|].
  unfold sched in *. cbn [fold_left]. unfold sched_step at 2. destruct (nth_error ts j) as [t|] eqn:E.
  - destruct (reads_step pp s t (HR j t (Hall j (or_introl eq_refl)) E)) as (t' & Et & Ht'). rewrite Et.
    destruct (IH s (set_nth ts j t')) as (ts' & E1 & E2 & E3).
    + intros C. apply Hi. right. exact C.
    + intros k Hk. apply Hall. right. exact Hk.
    + intros k u Hk Hu. destruct (Nat.eq_dec j k) as [->|N].
      * rewrite set_nth_same in Hu by (apply nth_error_Some; congruence). injection Hu as <-. exact Ht'.
      * rewrite set_nth_other in Hu by exact N. exact (HR k u Hk Hu).
    + exists ts'. split; [exact E1|]. split; [exact E2|]. rewrite E3. apply set_nth_other. intros ->. apply Hi. left. reflexivity.
  - apply IH; [intros C; apply Hi; right; exact C|intros k Hk; apply Hall; right; exact Hk|exact HR].
Qed.
Lemma readers_self : forall all ts i t, ~ In i all -> Readers all ts -> Readers all (set_nth ts i t).
Proof. intros all ts i t Hi HR j u Hj Hu. rewrite set_nth_other in Hu by (intros ->; contradiction). exact (HR j u Hj Hu). Qed.
Lemma sched_ok : forall pp order s ts, sh_ok s -> sh_ok (fst (sched pp order (s, ts))).
Proof.
  intros pp order. induction order as [|i order IH]; intros s ts H; [exact H|]. unfold sched in *. cbn [fold_left]. unfold sched_step at 2.
  destruct (nth_error ts i) as [t|]; [|apply IH; exact H]. destruct (thread_step pp s t) as [s' t'] eqn:E. apply IH.
  destruct t; cbn [thread_step] in E; try (injection E as <- <-; exact H).
  - cbv zeta in E. destruct (Nat.ltb _ _); injection E as <- _; unfold sh_ok in *; cbn [sh_cur sh_heap].
    + rewrite app_length. cbn [List.length]. lia.
    + rewrite write_buf_length. exact H.
  - cbv zeta in E. destruct (pp_relative _ _) as [[[b' from] to]|]; injection E as <- _; [|exact H]. unfold sh_ok in *. cbn [sh_cur sh_heap]. rewrite write_buf_length. exact H.
Qed.
Definition Ends (t : thread) : Prop := match t with TOpened _ _ | TRefused _ | TPanicked _ => True | _ => False end.
Lemma ends_sched : forall pp order s ts i t, Ends t -> nth_error ts i = Some t -> nth_error (snd (sched pp order (s, ts))) i = Some t.
Proof.
  intros pp order. induction order as [|j order IH]; intros s ts i t He Hi; [exact Hi|]. unfold sched in *. cbn [fold_left]. unfold sched_step at 2.
  destruct (nth_error ts j) as [u|] eqn:E; [|apply IH; assumption]. destruct (thread_step pp s u) as [s' u'] eqn:Et. apply IH; [exact He|].
  destruct (Nat.eq_dec j i) as [->|N]; [|rewrite set_nth_other by exact N; exact Hi]. assert (u = t) by congruence. subst u.
  rewrite set_nth_same by (apply nth_error_Some; congruence). destruct t; try contradiction; cbn [thread_step] in Et; injection Et as _ <-; reflexivity.
Qed.
Lemma sched_app : forall pp a b x, sched pp (a ++ b) x = sched pp b (sched pp a x).
Proof. intros. unfold sched. apply fold_left_app. Qed.
Lemma sched_cons : forall pp i b x, sched pp (i :: b) x = sched pp b (sched_step pp x i).
Proof. reflexivity. Qed.
Theorem alone_requests : forall pp before after s ts0 i path m1 m2 m3, pp_ok pp -> sh_ok s ->
  nth_error (snd (sched pp before (s, ts0))) i = Some (TWaits path) ->
  ~ In i (m1 ++ m2 ++ m3) -> Readers (m1 ++ m2 ++ m3) (snd (sched pp before (s, ts0))) ->
  nth_error (snd (sched pp (before ++ i :: m1 ++ i :: m2 ++ i :: m3 ++ i :: after) (s, ts0))) i = Some (outcome_of pp path).
Proof.
  intros pp before after s0 ts00 i path m1 m2 m3 Hok Hs0 Hi Hn HR. rewrite sched_app. pose proof (sched_ok pp before s0 ts00 Hs0) as Hs.
  destruct (sched pp before (s0, ts00)) as [s ts]. cbn [fst snd] in *. set (all := m1 ++ m2 ++ m3) in *.
  assert (A1 : forall j, In j m1 -> In j all) by (intros j H; unfold all; rewrite !in_app_iff; tauto).
  assert (A2 : forall j, In j m2 -> In j all) by (intros j H; unfold all; rewrite !in_app_iff; tauto).
  assert (A3 : forall j, In j m3 -> In j all) by (intros j H; unfold all; rewrite !in_app_iff; tauto).
  assert (Hlt : (i < List.length ts)%nat) by (apply nth_error_Some; congruence).
  assert (HS : exists s1, sched_step pp (s, ts) i = (s1, set_nth ts i (TSet path)) /\ sh_ok s1 /\
     PBuf (read_buf (sh_heap s1) (sh_cur s1)) (sh_len s1) = pp_set pp path (PBuf (read_buf (sh_heap s) (sh_cur s)) (sh_len s))).
  { unfold sched_step. rewrite Hi. cbn [thread_step]. destruct (Nat.ltb _ _).
    - eexists. split; [reflexivity|]. unfold sh_ok. cbn [sh_heap sh_cur sh_len]. split; [rewrite app_length; cbn; lia|]. rewrite read_buf_last. destruct (pp_set _ _ _); reflexivity.
    - eexists. split; [reflexivity|]. unfold sh_ok. cbn [sh_heap sh_cur sh_len]. split; [rewrite write_buf_length; exact Hs|]. rewrite write_buf_same by exact Hs. destruct (pp_set _ _ _); reflexivity. }
  destruct HS as (s1 & E1 & Hs1 & Hb1). set (b0 := PBuf (read_buf (sh_heap s) (sh_cur s)) (sh_len s)) in *.
  pose proof (static_closed pp b0 path Hok) as HC.
  rewrite sched_cons, E1, sched_app.
  destruct (reads_sched pp m1 i all s1 _ (fun C => Hn (A1 i C)) A1 (readers_self all ts i (TSet path) Hn HR)) as (ts1 & -> & HR1 & N1).
  rewrite set_nth_same in N1 by exact Hlt. rewrite sched_cons. unfold sched_step. rewrite N1. cbn [thread_step]. rewrite Hb1.
  assert (Hlt1 : (i < List.length ts1)%nat) by (apply nth_error_Some; congruence).
  destruct (pp_relative pp (pp_set pp path b0)) as [[[b' from] to]|].
  - destruct HC as [HC HL]. set (s2 := Shared (write_buf (sh_heap s1) (sh_cur s1) (pb_buff b')) (sh_cur s1) (sh_len s1)). rewrite sched_app.
    assert (R2 : slice (read_buf (sh_heap s2) (sh_cur s1)) from to = slice (pb_buff b') from to).
    { unfold s2. cbn [sh_heap]. rewrite write_buf_same by exact Hs1. reflexivity. }
    clearbody s2.
    destruct (reads_sched pp m2 i all s2 _ (fun C => Hn (A2 i C)) A2 (readers_self all ts1 i (TNamed path (sh_cur s1) from to) Hn HR1)) as (ts2 & -> & HR2 & N2).
    rewrite set_nth_same in N2 by exact Hlt1. rewrite sched_cons. unfold sched_step. rewrite N2. cbn [thread_step]. rewrite R2. unfold outcome_of. rewrite HC.
    assert (Hlt2 : (i < List.length ts2)%nat) by (apply nth_error_Some; congruence).
    destruct (is_safe (slice (pb_buff b') from to)).
    + rewrite sched_app.
      destruct (reads_sched pp m3 i all s2 _ (fun C => Hn (A3 i C)) A3 (readers_self all ts2 i (TChecked path (sh_cur s1) from to) Hn HR2)) as (ts3 & -> & HR3 & N3).
      rewrite set_nth_same in N3 by exact Hlt2. rewrite sched_cons. unfold sched_step. rewrite N3. cbn [thread_step]. rewrite R2.
      apply ends_sched; [exact I|]. apply set_nth_same. apply nth_error_Some. congruence.
    + apply ends_sched; [exact I|]. apply set_nth_same. exact Hlt2.
  - unfold outcome_of. rewrite HC. apply ends_sched; [exact I|]. apply set_nth_same. exact Hlt1.
Qed.
(* paths that are long enough never panic, however the requests interleave *)
Definition Calm (pp : replacer) (t : thread) : Prop :=
  match t with TWaits path | TSet path => (List.length (rp_prefix pp) <= S (List.length path))%nat | TPanicked _ => False | _ => True end.
Definition Filled (pp : replacer) (s : shared) : Prop :=
  (rp_max pp - List.length (rp_with pp) <= sh_len s)%nat /\ (rp_max pp - List.length (rp_with pp) <= List.length (read_buf (sh_heap s) (sh_cur s)))%nat.
Lemma calm_sched : forall pp order s ts, pp_ok pp -> (1 <= List.length (rp_with pp))%nat -> sh_ok s ->
  Forall (Calm pp) ts -> (Filled pp s \/ forall path, ~ In (TSet path) ts) ->
  Forall (Calm pp) (snd (sched pp order (s, ts))).
Proof.
  intros pp order. induction order as [|i order IH]; intros s ts Hok Hw Hs HC HF; [exact HC|]. rewrite sched_cons. unfold sched_step.
  destruct (nth_error ts i) as [t|] eqn:Ei; [|apply IH; assumption]. assert (Hlt : (i < List.length ts)%nat) by (apply nth_error_Some; congruence).
  assert (Ht : Calm pp t) by (rewrite Forall_forall in HC; apply HC; apply nth_error_In in Ei; exact Ei).
  assert (In_set : forall t' u, In u (set_nth ts i t') -> u = t' \/ In u ts).
  { intros t' u Hu. apply In_nth_error in Hu. destruct Hu as [k Hk]. destruct (Nat.eq_dec i k) as [<-|N].
    - rewrite set_nth_same in Hk by exact Hlt. left. congruence.
    - rewrite set_nth_other in Hk by exact N. right. apply nth_error_In in Hk. exact Hk. }
  assert (HC' : forall t', Calm pp t' -> Forall (Calm pp) (set_nth ts i t')).
  { intros t' H'. apply Forall_forall. intros u Hu. destruct (In_set t' u Hu) as [->|Hu']; [exact H'|]. rewrite Forall_forall in HC. apply HC. exact Hu'. }
  pose proof (sched_ok pp [i] s ts Hs) as Hs'. unfold sched in Hs'. cbn [fold_left] in Hs'. unfold sched_step in Hs'. rewrite Ei in Hs'.
  destruct (thread_step pp s t) as [s' t'] eqn:Et. cbn [fst] in Hs'.
  assert (K : s' = s -> Calm pp t' -> (forall path, t' <> TSet path) -> Forall (Calm pp) (snd (sched pp order (s', set_nth ts i t')))).
  { intros -> Hc Hne. apply IH; [exact Hok|exact Hw|exact Hs|apply HC'; exact Hc|]. destruct HF as [HF|HF]; [left; exact HF|]. right. intros path Hin.
    destruct (In_set _ _ Hin) as [C|C]; [apply (Hne path); symmetry; exact C|exact (HF path C)]. }
  destruct t as [path|path|path buf from to|path buf from to|path file|path|path]; cbn [thread_step] in Et.
  - cbv zeta in Et. set (b := PBuf (read_buf (sh_heap s) (sh_cur s)) (sh_len s)) in *.
    destruct (set_shape pp path b) as (x & y & Hb & Hx & Hl). set (b' := pp_set pp path b) in *. clearbody b'. cbn [Calm] in Ht. unfold pp_ok in Hok.
    assert (HF' : Filled pp s' /\ t' = TSet path).
    { unfold sh_ok in Hs. destruct (Nat.ltb _ _); injection Et as <- <-; (split; [|reflexivity]); unfold Filled; cbn [sh_len sh_heap sh_cur].
      - rewrite Hl, Hb, read_buf_last, !app_length. lia.
      - rewrite Hl, Hb, write_buf_same by exact Hs. rewrite !app_length. lia. }
    destruct HF' as [HF' ->]. apply IH; [exact Hok|exact Hw|exact Hs'|apply HC'; exact Ht|left; exact HF'].
  - assert (F : Filled pp s) by (destruct HF as [HF|HF]; [exact HF|exfalso; apply (HF path); apply nth_error_In in Ei; exact Ei]).
    destruct F as [F1 F2]. cbv zeta in Et. unfold pp_relative in Et. cbn [pb_buff pb_len] in Et.
    destruct (Nat.ltb_spec (List.length (read_buf (sh_heap s) (sh_cur s))) (rp_max pp - List.length (rp_with pp))) as [C|_]; [lia|].
    destruct (Nat.ltb_spec (sh_len s) (rp_max pp - List.length (rp_with pp))) as [C|_]; [lia|].
    injection Et as <- <-. apply IH; [exact Hok|exact Hw|exact Hs'|apply HC'; exact I|]. left. unfold Filled. cbn [sh_len sh_heap sh_cur pb_buff]. split; [exact F1|].
    rewrite write_buf_same by exact Hs. rewrite copy_at_length by exact F2. exact F2.
  - injection Et as <- <-. apply K; [reflexivity|destruct (is_safe _); exact I|]. intros p. destruct (is_safe _); discriminate.
  - injection Et as <- <-. apply K; [reflexivity|exact I|discriminate].
  - injection Et as <- <-. apply K; [reflexivity|exact I|discriminate].
  - injection Et as <- <-. apply K; [reflexivity|exact I|discriminate].
  - destruct Ht.
Qed.
Theorem never_panics : forall prefix root pp order paths, new_path prefix root = Some pp ->
  Forall (fun path => (List.length (rp_prefix pp) <= S (List.length path))%nat) paths ->
  forall path, ~ In (TPanicked path) (snd (sched pp order (sh_start, map TWaits paths))).
Proof.
  intros prefix root pp order paths Hn Hp path Hin. destruct (new_path_ok _ _ _ Hn) as (Hok & _ & Hw). pose proof (trailing_length _ _ Hw) as [_ Hw1].
  enough (H : Forall (Calm pp) (snd (sched pp order (sh_start, map TWaits paths)))) by (rewrite Forall_forall in H; exact (H _ Hin)).
  apply calm_sched; [exact Hok|exact Hw1|unfold sh_ok; cbn; lia| |].
  - apply Forall_forall. intros t Ht. apply in_map_iff in Ht. destruct Ht as (p & <- & Ht). rewrite Forall_forall in Hp. exact (Hp p Ht).
  - right. intros p Ht. apply in_map_iff in Ht. destruct Ht as (q & C & _). discriminate.
Qed.
