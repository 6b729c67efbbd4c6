(* Lemmas on the memory of a response's body (M_RespMem.v). *)
From Verif Require Import M_Base M_Status M_Client M_Mem M_Response M_RespMem S_RespMem.

Lemma nth_error_set_arr : forall h i a, (i < List.length h)%nat -> forall j,
  nth_error (set_arr h i a) j = if (j =? i)%nat then Some a else nth_error h j.
Proof.
  intros h i a Hi j. unfold set_arr. assert (L : List.length (firstn i h) = i) by (rewrite firstn_length; lia).
  destruct (Nat.eqb_spec j i) as [->|N].
  - rewrite nth_error_app2 by lia. rewrite L, Nat.sub_diag. reflexivity.
  - destruct (Nat.lt_ge_cases j i) as [Hl|Hg].
    + rewrite nth_error_app1 by lia.
      rewrite <- (firstn_skipn i h) at 2. rewrite nth_error_app1 by lia. reflexivity.
    + rewrite nth_error_app2 by lia. rewrite L. replace (j - i)%nat with (S (j - S i)) by lia. cbn [nth_error].
      rewrite <- (firstn_skipn (S i) h) at 2. rewrite nth_error_app2; rewrite firstn_length; [f_equal; lia|lia].
Qed.
Lemma set_arr_app : forall h0 new i a, (List.length h0 <= i)%nat -> set_arr (h0 ++ new) i a = h0 ++ set_arr new (i - List.length h0) a.
Proof.
  intros h0 new i a H. unfold set_arr. rewrite firstn_app, firstn_all2 by lia. rewrite skipn_app, (skipn_all2 h0) by lia.
  replace (S i - List.length h0)%nat with (S (i - List.length h0)) by lia. now rewrite <- app_assoc.
Qed.
Lemma gs_get_length : forall h s, Lendable h s -> List.length (gs_get h s) = size s.
Proof.
  intros h [s|] H; [|reflexivity]. destruct H as (a & Ha & H1 & H2). cbn. rewrite Ha.
  rewrite firstn_length, skipn_length. lia.
Qed.
Lemma gs_get_kept : forall h new s, Lendable h s -> gs_get (h ++ new) s = gs_get h s.
Proof.
  intros h new [s|] H; [|reflexivity]. destruct H as (a & Ha & _). cbn.
  rewrite nth_error_app1 by (apply nth_error_Some; congruence). reflexivity.
Qed.
Lemma Lendable_kept : forall h new s, Lendable h s -> Lendable (h ++ new) s.
Proof.
  intros h new [s|] H; [|exact I]. destruct H as (a & Ha & H). exists a. split; [|exact H].
  rewrite nth_error_app1 by (apply nth_error_Some; congruence). exact Ha.
Qed.
Lemma Lendable_s2b : forall h s, Lendable h s -> Lendable h (s2b s).
Proof. intros h [s|] H; [|exact I]. destruct H as (a & Ha & H1 & H2). exists a. cbn. repeat split; auto; lia. Qed.
Lemma Lendable_empty : forall h s, Lendable h s -> Lendable h (gs_empty s).
Proof. intros h [s|] H; [|exact I]. destruct H as (a & Ha & H1 & H2). exists a. cbn. repeat split; auto; lia. Qed.
Lemma gs_get_s2b : forall h s, gs_get h (s2b s) = gs_get h s.
Proof. intros h [s|]; reflexivity. Qed.
Lemma gs_get_empty : forall h s, gs_get h (gs_empty s) = [].
Proof. intros h [s|]; [|reflexivity]. cbn. now destruct nth_error. Qed.

(* appending shows what was there and what was added *)
Lemma go_append_shows : forall spare d r r', Lendable (mr_heap r) (mr_body r) -> go_append spare d r = Some r' ->
  gs_get (mr_heap r') (mr_body r') = gs_get (mr_heap r) (mr_body r) ++ d /\ Lendable (mr_heap r') (mr_body r').
Proof.
  intros spare d [h b w] r' HL H. cbn [mr_heap mr_body] in *. unfold go_append in H. cbn [mr_heap mr_body mr_wrote] in H.
  destruct d as [|x d0]; [injection H as <-; cbn [mr_heap mr_body]; rewrite app_nil_r; auto|].
  set (d := x :: d0) in *. clearbody d.
  assert (F : forall old, Some (MResp (h ++ [Arr (old ++ d ++ repeat x00 (spare (List.length old) (List.length old + List.length d))) false])
        (Some (GS (List.length h) 0 (List.length old + List.length d)
                  (List.length old + List.length d + spare (List.length old) (List.length old + List.length d)))) w) = Some r' ->
     gs_get (mr_heap r') (mr_body r') = old ++ d /\ Lendable (mr_heap r') (mr_body r')).
  { intros old E. injection E as <-. cbn [mr_heap mr_body]. split.
    - unfold gs_get. cbn [gs_arr gs_off gs_len]. rewrite nth_error_app2, Nat.sub_diag by lia. cbn [nth_error ar_bytes skipn].
      rewrite app_assoc. rewrite <- (app_length old d). rewrite firstn_app, firstn_all, Nat.sub_diag. apply app_nil_r.
    - eexists. cbn. rewrite nth_error_app2, Nat.sub_diag by lia. cbn. split; [reflexivity|].
      cbn [ar_bytes]. rewrite !app_length, repeat_length. lia. }
  destruct b as [s|]; [|exact (F [] H)].
  destruct (Nat.leb_spec (gs_len s + List.length d) (gs_cap s)) as [Hc|Hc].
  - destruct HL as (a & Ha & H1 & H2). rewrite Ha in H.
    assert (Hi : (gs_arr s < List.length h)%nat) by (apply nth_error_Some; congruence).
    destruct (ar_ro a); [discriminate|]. injection H as <-. cbn [mr_heap mr_body]. cbn [gs_get gs_arr gs_off gs_len].
    rewrite nth_error_set_arr by exact Hi. rewrite Nat.eqb_refl, Ha. unfold ar_put. cbn [ar_bytes]. split.
    + set (m := ar_bytes a) in *.
      assert (Lf : List.length (firstn (gs_off s + gs_len s) m) = (gs_off s + gs_len s)%nat) by (rewrite firstn_length; lia).
      rewrite skipn_app, Lf.
      replace (gs_off s - (gs_off s + gs_len s))%nat with 0%nat by lia. cbn [skipn].
      replace (skipn (gs_off s) (firstn (gs_off s + gs_len s) m)) with (firstn (gs_len s) (skipn (gs_off s) m)).
      2:{ rewrite skipn_firstn_comm. f_equal. lia. }
      rewrite app_assoc.
      assert (Lg : List.length (firstn (gs_len s) (skipn (gs_off s) m) ++ d) = (gs_len s + List.length d)%nat).
      { rewrite app_length, firstn_length, skipn_length. lia. }
      rewrite firstn_app, Lg, Nat.sub_diag. cbn [firstn]. rewrite app_nil_r. apply firstn_all2. lia.
    + eexists. cbn [gs_arr gs_off gs_len gs_cap]. rewrite nth_error_set_arr by exact Hi. rewrite Nat.eqb_refl. split; [reflexivity|].
      cbn [ar_bytes]. rewrite !app_length, firstn_length, skipn_length. lia.
  - exact (F _ H).
Qed.

(* the state of the builder while no lent memory was written to *)
Definition Body_is (h0 h : heap) (b : option gslice) (w : whose) : Prop :=
  match w with
  | Nobodys => b = None
  | Its_own => exists s, b = Some s /\ (List.length h0 <= gs_arr s)%nat /\ Lendable h b
  | Lent l c => exists s, b = Some s /\ gs_len s = l /\ gs_cap s = c /\ Lendable h0 b
  end.
Record Good (h0 : heap) (w : whose) (r : mresp) : Prop := {
  gd_new : exists new, mr_heap r = h0 ++ new /\ Forall (fun a => ar_ro a = false) new;
  gd_wrote : Forall (fun i => List.length h0 <= i)%nat (mr_wrote r);
  gd_body : Body_is h0 (mr_heap r) (mr_body r) w
}.
Lemma Body_is_lendable : forall h0 new b w, Body_is h0 (h0 ++ new) b w -> Lendable (h0 ++ new) b.
Proof.
  intros h0 new b [| |l c] H; cbn in H.
  - subst b. exact I.
  - destruct H as (s & -> & _ & H). exact H.
  - destruct H as (s & -> & _ & _ & H). now apply Lendable_kept.
Qed.
Lemma Good_lendable : forall h0 w r, Good h0 w r -> Lendable (mr_heap r) (mr_body r).
Proof. intros h0 w r [(new & E & _) _ H]. rewrite E in *. eapply Body_is_lendable, H. Qed.

Section S.
Variable spare : nat -> nat -> nat.
Variable h0 : heap.
Lemma good_fresh : forall d old r, (exists new, mr_heap r = h0 ++ new /\ Forall (fun a => ar_ro a = false) new) ->
  Forall (fun i => List.length h0 <= i)%nat (mr_wrote r) ->
  Good h0 Its_own (MResp (mr_heap r ++ [Arr (old ++ d ++ repeat x00 (spare (List.length old) (List.length old + List.length d))) false])
        (Some (GS (List.length (mr_heap r)) 0 (List.length old + List.length d)
                  (List.length old + List.length d + spare (List.length old) (List.length old + List.length d)))) (mr_wrote r)).
Proof.
  intros d old r (new & E & Hn) Hw. split; cbn [mr_heap mr_body mr_wrote].
  - eexists. rewrite E, <- app_assoc. split; [reflexivity|]. apply Forall_app. split; [exact Hn|]. repeat constructor.
  - exact Hw.
  - eexists. split; [reflexivity|]. split; [rewrite E, app_length; cbn; lia|].
    eexists. cbn. rewrite nth_error_app2, Nat.sub_diag by lia. cbn. split; [reflexivity|].
    cbn [ar_bytes]. rewrite !app_length, repeat_length. lia.
Qed.
Lemma go_append_wrote : forall d r r', go_append spare d r = Some r' ->
  Exists (fun i => i < List.length h0)%nat (mr_wrote r) -> Exists (fun i => i < List.length h0)%nat (mr_wrote r').
Proof.
  intros d r r' H HE. unfold go_append in H. destruct d as [|x d0]; [congruence|].
  destruct (mr_body r) as [s|]; [|injection H as <-; exact HE].
  destruct (_ <=? _)%nat; [|injection H as <-; exact HE].
  destruct nth_error as [a|]; [|discriminate]. destruct (ar_ro a); [discriminate|]. injection H as <-.
  cbn [mr_wrote]. apply Exists_app. now left.
Qed.
Lemma go_appends_wrote : forall ds r r', go_appends spare ds r = Some r' ->
  Exists (fun i => i < List.length h0)%nat (mr_wrote r) -> Exists (fun i => i < List.length h0)%nat (mr_wrote r').
Proof.
  induction ds as [|d ds IH]; intros r r' H HE; cbn [go_appends] in H; [congruence|].
  destruct (go_append spare d r) as [r1|] eqn:E1; [|discriminate]. refine (IH _ _ H _). exact (go_append_wrote _ _ _ E1 HE).
Qed.
Lemma good_append : forall d w r, Good h0 w r ->
  match add (List.length d) w with
  | Some w' => exists r', go_append spare d r = Some r' /\ Good h0 w' r'
  | None => go_append spare d r = None \/
            exists r', go_append spare d r = Some r' /\ Exists (fun i => i < List.length h0)%nat (mr_wrote r')
  end.
Proof.
  intros d w r G. pose proof (Good_lendable _ _ _ G) as HL. pose proof G as [Hn Hw Hb].
  destruct d as [|x d0]; [cbn; exists r; auto|].
  unfold go_append. cbn [List.length]. set (n := S (List.length d0)).
  assert (En : List.length (x :: d0) = n) by reflexivity.
  pose proof (good_fresh (x :: d0)) as F. set (d := x :: d0) in *. clearbody d. rewrite En in *.
  destruct w as [| |l c]; cbn [add].
  - cbn in Hb. rewrite Hb. eexists. split; [reflexivity|]. exact (F [] r Hn Hw).
  - destruct Hb as (s & Es & Hs & _). rewrite Es in *. unfold n. cbn [add]. fold n.
    destruct (Nat.leb_spec (gs_len s + n) (gs_cap s)) as [Hc|Hc].
    + destruct HL as (a & Ha & H1 & H2). rewrite Ha. destruct Hn as (new & E & Hn).
      assert (Hro : ar_ro a = false).
      { rewrite E, nth_error_app2 in Ha by exact Hs. apply nth_error_In in Ha. rewrite Forall_forall in Hn. auto. }
      rewrite Hro. eexists. split; [reflexivity|].
      assert (Hi : (gs_arr s < List.length (mr_heap r))%nat) by (apply nth_error_Some; congruence).
      split; cbn [mr_heap mr_body mr_wrote].
      * exists (set_arr new (gs_arr s - List.length h0) (ar_put a (gs_off s + gs_len s) d)).
        rewrite E, set_arr_app by exact Hs. split; [reflexivity|]. unfold set_arr.
        apply Forall_app. split.
        { apply Forall_forall. intros y Hy. rewrite Forall_forall in Hn. apply Hn.
          rewrite <- (firstn_skipn (gs_arr s - List.length h0) new). apply in_or_app. auto. }
        constructor; [exact Hro|]. apply Forall_forall. intros y Hy. rewrite Forall_forall in Hn. apply Hn.
        rewrite <- (firstn_skipn (S (gs_arr s - List.length h0)) new). apply in_or_app. auto.
      * apply Forall_app. split; [exact Hw|]. repeat constructor. exact Hs.
      * eexists. split; [reflexivity|]. split; [exact Hs|].
        eexists. cbn [gs_arr gs_off gs_len gs_cap]. rewrite nth_error_set_arr by exact Hi. rewrite Nat.eqb_refl. split; [reflexivity|].
        cbn [ar_put ar_bytes]. rewrite !app_length, firstn_length, skipn_length. lia.
    + eexists. split; [reflexivity|]. rewrite <- En. rewrite <- En in F. apply F; assumption.
  - destruct Hb as (s & Es & <- & <- & Hl). rewrite Es in *. destruct Hl as (a & Ha & H1 & H2).
    assert (Hi : (gs_arr s < List.length h0)%nat) by (apply nth_error_Some; congruence).
    unfold n. cbn [add]. fold n.
    destruct (Nat.leb_spec (gs_len s + n) (gs_cap s)) as [Hc|Hc].
    + destruct Hn as (new & E & _). rewrite E. rewrite nth_error_app1 by exact Hi. rewrite Ha.
      destruct (ar_ro a); [now left|right]. eexists. split; [reflexivity|]. cbn [mr_wrote]. apply Exists_app. right. now constructor.
    + eexists. split; [reflexivity|]. rewrite <- En. rewrite <- En in F. apply F; assumption.
Qed.

Lemma good_appends : forall ds w r, Good h0 w r ->
  match adds (map (@List.length byte) ds) w with
  | Some w' => exists r', go_appends spare ds r = Some r' /\ Good h0 w' r'
  | None => go_appends spare ds r = None \/
            exists r', go_appends spare ds r = Some r' /\ Exists (fun i => i < List.length h0)%nat (mr_wrote r')
  end.
Proof.
  induction ds as [|d ds IH]; intros w r G; cbn [map adds go_appends]; [exists r; auto|].
  pose proof (good_append d w r G) as HA. destruct (add (List.length d) w) as [w'|].
  - destruct HA as (r' & -> & G'). exact (IH _ _ G').
  - destruct HA as [->|(r' & -> & HE)]; [now left|]. destruct (go_appends spare ds r') as [r2|] eqn:E; [right|now left].
    exists r2. split; [reflexivity|]. exact (go_appends_wrote _ _ _ E HE).
Qed.

Lemma bcall_wrote : forall c r r', bcall_run spare c r = Some r' ->
  Exists (fun i => i < List.length h0)%nat (mr_wrote r) -> Exists (fun i => i < List.length h0)%nat (mr_wrote r').
Proof.
  intros [b|s|b|ps e|] r r' H HE; cbn [bcall_run] in H; try (injection H as <-; exact HE).
  - exact (go_append_wrote _ _ _ H HE).
  - destruct go_appends as [r1|] eqn:E; [|discriminate]. injection H as <-.
    assert (HE1 : Exists (fun i => i < List.length h0)%nat (mr_wrote r1)) by (refine (go_appends_wrote _ _ _ E _); exact HE).
    now destruct e.
Qed.
Lemma bcalls_wrote : forall cs r r', bcalls_run spare cs r = Some r' ->
  Exists (fun i => i < List.length h0)%nat (mr_wrote r) -> Exists (fun i => i < List.length h0)%nat (mr_wrote r').
Proof.
  induction cs as [|c cs IH]; intros r r' H HE; cbn [bcalls_run] in H; [congruence|].
  destruct (bcall_run spare c r) as [r1|] eqn:E1; [|discriminate]. refine (IH _ _ H _). exact (bcall_wrote _ _ _ E1 HE).
Qed.
Lemma good_set : forall b w r w', Good h0 w' r -> Body_is h0 (mr_heap r) b w -> Good h0 w (set_mbody b r).
Proof. intros b w r w' [Hn Hw _] Hb. split; assumption. Qed.
Lemma body_lent : forall h b, Lendable h0 b -> Body_is h0 h b (lent b).
Proof. intros h [s|] H; [|reflexivity]. exists s. auto. Qed.
Lemma body_text : forall h b, Lendable h0 b -> Body_is h0 h (s2b b) (lent_text b).
Proof. intros h [s|] H; [|reflexivity]. eexists. split; [reflexivity|]. cbn. split; [reflexivity|]. split; [reflexivity|]. apply (Lendable_s2b _ _ H). Qed.
Lemma body_emptied : forall h b w, Body_is h0 h b w -> Body_is h0 h (gs_empty b) (emptied w).
Proof.
  intros h b [| |l c] H; cbn in *.
  - now subst b.
  - destruct H as (s & -> & H1 & H2). eexists. split; [reflexivity|]. split; [exact H1|]. apply (Lendable_empty _ _ H2).
  - destruct H as (s & -> & H1 & H2 & H3). eexists. split; [reflexivity|]. split; [reflexivity|]. split; [exact H2|]. apply (Lendable_empty _ _ H3).
Qed.
Lemma good_call : forall c w r, LendableCall h0 c -> Good h0 w r ->
  match call_on c w with
  | Some w' => exists r', bcall_run spare c r = Some r' /\ Good h0 w' r'
  | None => bcall_run spare c r = None \/
            exists r', bcall_run spare c r = Some r' /\ Exists (fun i => i < List.length h0)%nat (mr_wrote r')
  end.
Proof.
  intros c w r HL G. destruct c as [b|s|b|ps e|]; cbn [call_on bcall_run LendableCall] in *.
  - eexists. split; [reflexivity|]. eapply good_set; [exact G|]. now apply body_lent.
  - eexists. split; [reflexivity|]. eapply good_set; [exact G|]. now apply body_text.
  - assert (E : size b = List.length (gs_get (mr_heap r) b)).
    { symmetry. apply gs_get_length. destruct G as [(new & -> & _) _ _]. now apply Lendable_kept. }
    rewrite E. now apply good_append.
  - assert (G1 : Good h0 (emptied w) (set_mbody (gs_empty (mr_body r)) r)).
    { eapply good_set; [exact G|]. apply body_emptied. apply (gd_body _ _ _ G). }
    pose proof (good_appends ps _ _ G1) as HA. destruct adds as [w'|].
    + destruct HA as (r' & -> & G'). eexists. split; [reflexivity|]. destruct e as [s|]; [|exact G'].
      eapply good_set; [exact G'|]. now apply body_text.
    + destruct HA as [->|(r' & -> & HE)]; [now left|right]. eexists. split; [reflexivity|]. now destruct e.
  - eexists. split; [reflexivity|]. eapply good_set; [exact G|]. reflexivity.
Qed.
Lemma good_calls : forall cs w r, Forall (LendableCall h0) cs -> Good h0 w r ->
  match calls_on cs w with
  | Some w' => exists r', bcalls_run spare cs r = Some r' /\ Good h0 w' r'
  | None => bcalls_run spare cs r = None \/
            exists r', bcalls_run spare cs r = Some r' /\ Exists (fun i => i < List.length h0)%nat (mr_wrote r')
  end.
Proof.
  induction cs as [|c cs IH]; intros w r HL G; cbn [calls_on bcalls_run]; [exists r; auto|].
  inversion HL; subst. pose proof (good_call c w r ltac:(assumption) G) as HA. destruct (call_on c w) as [w'|].
  - destruct HA as (r' & -> & G'). now apply IH.
  - destruct HA as [->|(r' & -> & HE)]; [now left|]. destruct (bcalls_run spare cs r') as [r2|] eqn:E; [right|now left].
    exists r2. split; [reflexivity|]. exact (bcalls_wrote _ _ _ E HE).
Qed.
Lemma good_new : Good h0 Nobodys (new_mresp h0).
Proof. split; cbn; [exists []; rewrite app_nil_r; auto|constructor|reflexivity]. Qed.

(* the contents are those of M_Response *)
Lemma appends_shows : forall ds r r', Lendable (mr_heap r) (mr_body r) -> go_appends spare ds r = Some r' ->
  gs_get (mr_heap r') (mr_body r') = gs_get (mr_heap r) (mr_body r) ++ concat ds.
Proof.
  induction ds as [|d ds IH]; intros r r' HL H; cbn [go_appends concat] in *; [injection H as <-; now rewrite app_nil_r|].
  destruct (go_append spare d r) as [r1|] eqn:E1; [|discriminate]. destruct (go_append_shows _ _ _ _ HL E1) as (S1 & L1).
  rewrite (IH _ _ L1 H), S1, app_assoc. reflexivity.
Qed.
Lemma writes_body : forall ps f, f_body (fold_left (fun g b => resp_write b g) ps f) = f_body f ++ concat ps.
Proof.
  induction ps as [|p ps IH]; intros f; cbn [fold_left concat]; [now rewrite app_nil_r|].
  rewrite IH. cbn. now rewrite app_assoc.
Qed.
Lemma shows_call : forall c w w' r r' f, LendableCall h0 c -> Good h0 w r -> call_on c w = Some w' -> bcall_run spare c r = Some r' ->
  gs_get (mr_heap r) (mr_body r) = f_body f ->
  exists f', resp_op (as_rop h0 c) f = Some f' /\ gs_get (mr_heap r') (mr_body r') = f_body f'.
Proof.
  intros c w w' r r' f HL G HC H HB. pose proof G as [(new & En & _) _ _].
  destruct c as [b|s|b|ps e|]; cbn [as_rop resp_op bcall_run LendableCall call_on] in *.
  - injection H as <-. eexists. split; [reflexivity|]. cbn [set_mbody mr_heap mr_body]. rewrite En. now apply gs_get_kept.
  - injection H as <-. eexists. split; [reflexivity|]. cbn [set_mbody mr_heap mr_body]. rewrite gs_get_s2b, En. now apply gs_get_kept.
  - eexists. split; [reflexivity|]. destruct (go_append_shows _ _ _ _ (Good_lendable _ _ _ G) H) as (S1 & _). rewrite S1, HB.
    cbn. rewrite En. now rewrite gs_get_kept.
  - eexists. split; [reflexivity|].
    assert (G1 : Good h0 (emptied w) (set_mbody (gs_empty (mr_body r)) r)).
    { eapply good_set; [exact G|]. apply body_emptied. apply (gd_body _ _ _ G). }
    pose proof (good_appends ps _ _ G1) as HA.
    destruct go_appends as [r1|] eqn:E; [|discriminate]. injection H as <-.
    pose proof (appends_shows _ _ _ (Good_lendable _ _ _ G1) E) as S1. cbn [set_mbody mr_heap mr_body] in S1. rewrite gs_get_empty in S1.
    destruct adds as [w1|]; [|discriminate]. destruct HA as (r1' & E1 & [(new1 & En1 & _) _ _]). injection E1 as <-.
    destruct e as [s|]; cbn [option_map resp_json resp_try_json resp_error].
    + cbn [set_mbody mr_heap mr_body]. rewrite gs_get_s2b, En1. cbn. now apply gs_get_kept.
    + cbn. rewrite S1, writes_body. reflexivity.
  - injection H as <-. eexists. split; reflexivity.
Qed.
Lemma shows_calls : forall cs w r f, Forall (LendableCall h0) cs -> Good h0 w r -> calls_on cs w <> None ->
  gs_get (mr_heap r) (mr_body r) = f_body f ->
  exists r' f', bcalls_run spare cs r = Some r' /\ resp_ops (map (as_rop h0) cs) f = Some f' /\
    gs_get (mr_heap r') (mr_body r') = f_body f'.
Proof.
  induction cs as [|c cs IH]; intros w r f HL G HC HB; cbn [calls_on bcalls_run map resp_ops] in *; [eauto|].
  inversion HL as [|? ? HL1 HL2]; subst. pose proof (good_call c w r HL1 G) as HA. destruct (call_on c w) as [w'|] eqn:EC; [|congruence].
  destruct HA as (r1 & E1 & G1). rewrite E1. destruct (shows_call _ _ _ _ _ _ HL1 G EC E1 HB) as (f1 & -> & HB1). eauto.
Qed.

(* with nothing but read-only memory to lend, carelessness ends the process *)
Lemma wrote_ro_append : Forall (fun a => ar_ro a = true) h0 -> forall d w r, Good h0 w r -> add (List.length d) w = None -> go_append spare d r = None.
Proof.
  intros HR d w r G HA. pose proof G as [(new & En & _) _ Hb]. destruct w as [| |l c]; [destruct d; discriminate..|].
  destruct Hb as (s & Es & <- & <- & Hl). rewrite Es in Hl. destruct Hl as (a & Ha & _).
  destruct d as [|x d]; [discriminate|]. unfold go_append. rewrite Es. cbn [add List.length] in HA.
  cbn [List.length]. destruct (_ <=? _)%nat; [|discriminate].
  rewrite En, nth_error_app1 by (apply nth_error_Some; congruence). rewrite Ha.
  rewrite Forall_forall in HR. now rewrite (HR a) by (eapply nth_error_In; exact Ha).
Qed.
Lemma wrote_ro_appends : Forall (fun a => ar_ro a = true) h0 -> forall ds w r, Good h0 w r -> adds (map (@List.length byte) ds) w = None -> go_appends spare ds r = None.
Proof.
  intros HR. induction ds as [|d ds IH]; intros w r G HA; cbn [map adds go_appends] in *; [discriminate|].
  pose proof (good_append d w r G) as HG. destruct (add (List.length d) w) as [w'|] eqn:E.
  - destruct HG as (r' & -> & G'). eapply IH; eauto.
  - now rewrite (wrote_ro_append HR _ _ _ G E).
Qed.
Lemma wrote_ro_calls : Forall (fun a => ar_ro a = true) h0 -> forall cs w r, Forall (LendableCall h0) cs -> Good h0 w r -> calls_on cs w = None -> bcalls_run spare cs r = None.
Proof.
  intros HR. induction cs as [|c cs IH]; intros w r HL G HC; cbn [calls_on bcalls_run] in *; [discriminate|].
  inversion HL as [|? ? HL1 HL2]; subst. pose proof (good_call c w r HL1 G) as HG. destruct (call_on c w) as [w'|] eqn:E.
  - destruct HG as (r' & -> & G'). eapply IH; eauto.
  - assert (bcall_run spare c r = None) as ->; [|reflexivity].
    destruct c as [b|s|b|ps e|]; cbn [call_on bcall_run LendableCall] in *; try discriminate.
    + assert (Es : size b = List.length (gs_get (mr_heap r) b)).
      { symmetry. apply gs_get_length. destruct G as [(new & -> & _) _ _]. now apply Lendable_kept. }
      rewrite Es in E. now apply (wrote_ro_append HR _ w).
    + assert (G1 : Good h0 (emptied w) (set_mbody (gs_empty (mr_body r)) r)).
      { eapply good_set; [exact G|]. apply body_emptied. apply (gd_body _ _ _ G). }
      destruct adds eqn:EA; [discriminate|]. now rewrite (wrote_ro_appends HR _ _ _ G1 EA).
Qed.
End S.

Lemma skipn_twice : forall (m : bytes) x y, skipn x (skipn y m) = skipn (x + y) m.
Proof.
  intros m x y. revert m. induction y as [|y IH]; intros m; [now rewrite Nat.add_0_r|].
  rewrite Nat.add_succ_r. destruct m as [|c m]; [now rewrite !skipn_nil|]. cbn [skipn]. apply IH.
Qed.
