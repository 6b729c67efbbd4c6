(* Percent decoding: the model equals its specification, also when decoding in place. *)
From Verif Require Import M_Base L_Base M_Status M_Uri S_Head.

(* Structural characterisation of what Decode computes: invalid digits count as 0, only a
   truncated escape is an error. *)
Fixpoint pct_lax (s : bytes) : option bytes :=
  match s with
  | [] => Some []
  | c :: r =>
      if Byte.eqb c x25 then
        match r with
        | h :: l :: r' => option_map (cons (bor (shl4 (hexconv h)) (hexconv l))) (pct_lax r')
        | _ => None
        end
      else option_map (cons c) (pct_lax r)
  end.

Lemma pct_lax_app : forall a r, ~ In x25 a -> pct_lax (a ++ r) = option_map (app a) (pct_lax r).
Proof.
  induction a as [|c a IH]; intros r H.
  - simpl. destruct (pct_lax r); reflexivity.
  - simpl. destruct (Byte.eqb c x25) eqn:E.
    + apply beq_eq in E. subst. exfalso. apply H. left. reflexivity.
    + rewrite IH by (intro Hi; apply H; right; exact Hi).
      destruct (pct_lax r); reflexivity.
Qed.

Lemma pct_lax_plain : forall a, ~ In x25 a -> pct_lax a = Some a.
Proof.
  intros a H. rewrite <- (app_nil_r a) at 1. rewrite pct_lax_app by exact H. simpl.
  rewrite app_nil_r. reflexivity.
Qed.

Lemma uri_decode_aux_lax : forall fuel src buff, (List.length src < fuel)%nat ->
  uri_decode_aux fuel src buff = option_map (app buff) (pct_lax src).
Proof.
  induction fuel as [|f IH]; intros src buff Hf; [lia|]. simpl.
  destruct (cut src x25) as [[a b]|] eqn:Ec.
  - pose proof (cut_len _ _ _ _ Ec) as Hl. apply cut_some in Ec. destruct Ec as [-> Hn].
    rewrite pct_lax_app by exact Hn.
    destruct b as [|h [|l rest]].
    + reflexivity.
    + reflexivity.
    + rewrite IH by (simpl in Hl; lia). simpl.
      destruct (pct_lax rest) as [d|]; simpl; [|reflexivity].
      f_equal. repeat rewrite <- app_assoc. reflexivity.
  - apply cut_none in Ec. rewrite pct_lax_plain by exact Ec. simpl.
    destruct buff; reflexivity.
Qed.

Lemma uri_decode_lax : forall src, uri_decode src = pct_lax src.
Proof.
  intro src. unfold uri_decode. rewrite uri_decode_aux_lax by lia.
  destruct (pct_lax src); reflexivity.
Qed.

(* the nibble arithmetic agrees with the specification on hexadecimal digits *)
Lemma hexconv_value : forall c v, hex_value c = Some v -> hexconv c = byte_of_N v /\ (v < 16)%N.
Proof. intros c v H. destruct c; vm_compute in H; try discriminate; injection H as <-; split; reflexivity. Qed.

Lemma nibbles : forall vh vl, (vh < 16)%N -> (vl < 16)%N ->
  bor (shl4 (byte_of_N vh)) (byte_of_N vl) = byte_of_N (16 * vh + vl).
Proof.
  intros vh vl Hh Hl.
  assert (Hc : forall n, (n < 16)%N -> In n [0;1;2;3;4;5;6;7;8;9;10;11;12;13;14;15]%N).
  { intros n Hn. destruct n as [|p]; [left; reflexivity|].
    do 4 (destruct p as [p|p|]; try (simpl; lia)). }
  apply Hc in Hh. apply Hc in Hl. clear Hc.
  simpl in Hh, Hl.
  repeat (destruct Hh as [<-|Hh]; [repeat (destruct Hl as [<-|Hl]; [reflexivity|]); contradiction|]).
  contradiction.
Qed.

Lemma pct_decodes_lax : forall s d, PctDecodes s d -> pct_lax s = Some d.
Proof.
  induction 1 as [|c s d Hc H IH|h l vh vl s d Hh Hl H IH]; simpl.
  - reflexivity.
  - apply beq_neq in Hc. rewrite Hc, IH. reflexivity.
  - rewrite IH. simpl. apply hexconv_value in Hh, Hl. destruct Hh as [-> Hh], Hl as [-> Hl].
    rewrite nibbles by assumption. reflexivity.
Qed.

Lemma uri_decode_spec : forall s d, PctDecodes s d -> uri_decode s = Some d.
Proof. intros s d H. rewrite uri_decode_lax. apply pct_decodes_lax. exact H. Qed.

Lemma pct_lax_length : forall n s d, (List.length s <= n)%nat -> pct_lax s = Some d ->
  (List.length d <= List.length s)%nat.
Proof.
  induction n as [|n IH]; intros s d Hn H.
  - destruct s; [|simpl in Hn; lia]. injection H as <-. simpl. lia.
  - destruct s as [|c r]; simpl in H.
    + injection H as <-. simpl. lia.
    + simpl in Hn. destruct (Byte.eqb c x25).
      * destruct r as [|h [|l r]]; try discriminate.
        destruct (pct_lax r) as [d'|] eqn:E; [|discriminate]. injection H as <-.
        apply IH in E; simpl in *; lia.
      * destruct (pct_lax r) as [d'|] eqn:E; [|discriminate]. injection H as <-.
        apply IH in E; simpl in *; lia.
Qed.

Lemma pct_lax_nonempty : forall s d, pct_lax s = Some d -> s <> [] -> d <> [].
Proof.
  intros s d H Hs. destruct s as [|c r]; [contradiction|]. simpl in H.
  destruct (Byte.eqb c x25).
  - destruct r as [|h [|l r]]; try discriminate.
    destruct (pct_lax r); [|discriminate]. injection H as <-. discriminate.
  - destruct (pct_lax r); [|discriminate]. injection H as <-. discriminate.
Qed.

Lemma uri_decode_length : forall s d, uri_decode s = Some d -> (List.length d <= List.length s)%nat.
Proof. intros s d H. rewrite uri_decode_lax in H. eapply pct_lax_length; [apply le_n|exact H]. Qed.

Lemma uri_decode_id : forall s, ~ In x25 s -> uri_decode s = Some s.
Proof. intros s H. rewrite uri_decode_lax. apply pct_lax_plain. exact H. Qed.

(* ---- memory lemmas ---- *)
Lemma write_at_length : forall mem off d, (off + List.length d <= List.length mem)%nat ->
  List.length (write_at mem off d) = List.length mem.
Proof.
  intros. unfold write_at. rewrite !app_length, firstn_length, skipn_length. lia.
Qed.

Lemma skipn_add : forall (A : Type) (l : list A) a b, skipn a (skipn b l) = skipn (b + a) l.
Proof.
  intros A l a b. revert l. induction b as [|b IH]; intro l; [reflexivity|].
  destruct l; [simpl; apply skipn_nil|]. simpl. apply IH.
Qed.

Lemma skipn_write_at : forall mem off d k, (off + List.length d <= k)%nat -> (k <= List.length mem)%nat ->
  skipn k (write_at mem off d) = skipn k mem.
Proof.
  intros mem off d k H1 H2. unfold write_at.
  rewrite app_assoc, skipn_app.
  assert (Hl : List.length (firstn off mem ++ d) = (off + List.length d)%nat)
    by (rewrite app_length, firstn_length; lia).
  rewrite skipn_all2 by lia. rewrite Hl. simpl.
  rewrite skipn_add. f_equal. lia.
Qed.

Lemma firstn_write_at : forall mem off d, (off + List.length d <= List.length mem)%nat ->
  firstn (off + List.length d) (write_at mem off d) = firstn off mem ++ d.
Proof.
  intros mem off d H. unfold write_at. rewrite app_assoc.
  rewrite firstn_app.
  assert (Hl : List.length (firstn off mem ++ d) = (off + List.length d)%nat)
    by (rewrite app_length, firstn_length; lia).
  rewrite Hl, Nat.sub_diag. simpl. rewrite app_nil_r.
  apply firstn_all2. lia.
Qed.

Lemma nth_skipn : forall (A : Type) (l : list A) i k dflt, nth i (skipn k l) dflt = nth (k + i) l dflt.
Proof.
  intros A l i k. revert l. induction k as [|k IH]; intros l dflt; [reflexivity|].
  destruct l; [simpl; destruct i; reflexivity|]. simpl. apply IH.
Qed.

Lemma slice_skipn : forall mem r e k, (k <= r)%nat -> slice mem r e = slice (skipn k mem) (r - k) (e - k).
Proof.
  intros mem r e k H. unfold slice. rewrite skipn_add. f_equal; [lia|f_equal; lia].
Qed.

Lemma slice_length : forall mem r e, (e <= List.length mem)%nat -> List.length (slice mem r e) = (e - r)%nat.
Proof. intros. unfold slice. rewrite firstn_length, skipn_length. lia. Qed.

Lemma slice_split : forall mem r e i, (r + i <= e)%nat ->
  slice mem r e = slice mem r (r + i) ++ slice mem (r + i) e.
Proof.
  intros mem r e i H. unfold slice.
  replace (r + i - r)%nat with i by lia.
  rewrite <- (firstn_skipn i (firstn (e - r) (skipn r mem))).
  rewrite firstn_firstn. replace (Nat.min i (e - r)) with i by lia. f_equal.
  rewrite skipn_firstn_comm, skipn_add. f_equal. lia.
Qed.

Lemma firstn_slice : forall mem w, slice mem 0 w = firstn w mem.
Proof. intros. unfold slice. simpl. rewrite Nat.sub_0_r. reflexivity. Qed.

Lemma app_eq_len : forall (A : Type) (a b c d : list A), a ++ b = c ++ d ->
  List.length a = List.length c -> b = d.
Proof.
  intros A a. induction a as [|x a IH]; intros b c d H Hl; destruct c as [|y c]; simpl in *;
    try discriminate; [exact H|].
  injection H as _ H. apply (IH _ _ _ H). lia.
Qed.

Definition mem_ok (mem mem' : bytes) (e : nat) : Prop :=
  List.length mem' = List.length mem /\ skipn e mem' = skipn e mem.

Lemma uri_decode_mem_aux_ok : forall fuel mem r e w,
  (e - r < fuel)%nat -> (w <= r)%nat -> (r <= e)%nat -> (e <= List.length mem)%nat ->
  (w = 0%nat -> r = 0%nat) ->
  exists mem' res, uri_decode_mem_aux fuel mem r e w = (mem', res) /\ mem_ok mem mem' e /\
    match pct_lax (slice mem r e) with
    | Some d => exists i j, res = Some (i, j) /\ (i <= j)%nat /\ (j <= e)%nat /\
                  slice mem' i j = firstn w mem ++ d /\ i = 0%nat
    | None => res = None
    end.
Proof.
  induction fuel as [|f IH]; intros mem r e w Hf Hwr Hre Hel Hw0; [lia|].
  simpl. destruct (cut (slice mem r e) x25) as [[a b]|] eqn:Ec.
  - pose proof (cut_len _ _ _ _ Ec) as Hl. rewrite slice_length in Hl by exact Hel.
    pose proof Ec as Ec'. apply cut_some in Ec. destruct Ec as [Es Hn].
    rewrite Es, pct_lax_app by exact Hn.
    destruct b as [|h [|l rest]]; try (exists mem, None; repeat split; reflexivity).
    simpl in Hl.
    set (i := List.length a) in *.
    set (mem1 := write_at mem w (slice mem r (r + i))).
    assert (Hsa : slice mem r (r + i) = a).
    { pose proof (slice_split mem r e i ltac:(lia)) as Hsp. rewrite Es in Hsp.
      apply (f_equal (firstn i)) in Hsp. rewrite firstn_app in Hsp.
      unfold i in Hsp at 1 2. rewrite firstn_all, Nat.sub_diag in Hsp. simpl in Hsp.
      rewrite app_nil_r in Hsp. symmetry. etransitivity; [exact Hsp|]. rewrite firstn_app.
      rewrite slice_length by lia. replace (r + i - r)%nat with i by lia.
      rewrite Nat.sub_diag. simpl. rewrite app_nil_r. apply firstn_all2.
      rewrite slice_length by lia. lia. }
    assert (Hla : List.length (slice mem r (r + i)) = i) by (rewrite Hsa; reflexivity).
    assert (Hl1 : List.length mem1 = List.length mem)
      by (unfold mem1; apply write_at_length; rewrite Hla; lia).
    assert (Hs1 : skipn (r + i) mem1 = skipn (r + i) mem)
      by (unfold mem1; apply skipn_write_at; [rewrite Hla; lia|lia]).
    (* what the tail of the source looks like *)
    assert (Htail : slice mem (r + i) e = x25 :: h :: l :: rest).
    { pose proof (slice_split mem r e i ltac:(lia)) as Hsp. rewrite Es, Hsa in Hsp.
      apply app_inv_head in Hsp. symmetry. exact Hsp. }
    assert (Hnth : forall k, (k < e - (r + i))%nat ->
              nth (r + i + k) mem1 x00 = nth k (x25 :: h :: l :: rest) x00).
    { intros k Hk. rewrite <- Htail. rewrite <- nth_skipn, Hs1. unfold slice.
      rewrite <- (firstn_skipn (e - (r + i)) (skipn (r + i) mem)) at 1.
      apply app_nth1. rewrite firstn_length, skipn_length. lia. }
    assert (Hlt : List.length (x25 :: h :: l :: rest) = (e - (r + i))%nat)
      by (rewrite <- Htail; apply slice_length; lia).
    simpl in Hlt.
    rewrite (Hnth 1%nat) by lia. rewrite (Hnth 2%nat) by lia. simpl (nth _ _ _).
    set (v := bor (shl4 (hexconv h)) (hexconv l)).
    set (mem2 := write_at mem1 (w + i) [v]).
    assert (Hl2 : List.length mem2 = List.length mem)
      by (unfold mem2; rewrite write_at_length; [exact Hl1|simpl; lia]).
    assert (Hs2 : skipn (r + i + 3) mem2 = skipn (r + i + 3) mem).
    { unfold mem2. rewrite skipn_write_at; [|simpl; lia|lia].
      replace (r + i + 3)%nat with ((r + i) + 3)%nat by lia.
      rewrite <- !(skipn_add _ _ 3). rewrite Hs1. reflexivity. }
    assert (Hsl2 : slice mem2 (r + i + 3) e = rest).
    { unfold slice. rewrite Hs2. fold (slice mem (r + i + 3) e).
      pose proof (slice_split mem (r + i) e 3 ltac:(lia)) as Hsp. rewrite Htail in Hsp.
      change (x25 :: h :: l :: rest) with ([x25; h; l] ++ rest) in Hsp.
      symmetry. apply (app_eq_len _ _ _ _ _ Hsp).
      rewrite slice_length by lia. simpl. lia. }
    assert (Hf2 : firstn (w + i + 1) mem2 = firstn w mem ++ a ++ [v]).
    { unfold mem2. change (w + i + 1)%nat with ((w + i) + List.length [v])%nat.
      rewrite firstn_write_at by (simpl; lia).
      rewrite app_assoc. f_equal. unfold mem1.
      pose proof (firstn_write_at mem w (slice mem r (r + i)) ltac:(lia)) as Hx.
      rewrite Hla, Hsa in Hx. rewrite Hsa. exact Hx. }
    destruct (IH mem2 (r + i + 3)%nat e (w + i + 1)%nat) as (mem' & res & Hrun & Hok & Hres);
      try lia.
    exists mem', res. split; [exact Hrun|]. split.
    + destruct Hok as [Ho1 Ho2]. split; [lia|]. rewrite Ho2.
      destruct (Nat.le_exists_sub (r + i + 3) e) as (k & Hk & _); [lia|].
      rewrite Hk, Nat.add_comm. rewrite <- !(skipn_add _ _ k). rewrite Hs2. reflexivity.
    + rewrite Hsl2, Hf2 in Hres. simpl. destruct (pct_lax rest) as [d|]; simpl.
      * destruct Hres as (i' & j' & -> & Hij & Hje & Hsd & Hi0).
        exists i', j'. repeat split; try assumption. rewrite Hsd.
        unfold v. repeat rewrite <- app_assoc. reflexivity.
      * exact Hres.
  - apply cut_none in Ec. rewrite pct_lax_plain by exact Ec.
    destruct (Nat.eqb w 0) eqn:Ew.
    + apply Nat.eqb_eq in Ew. subst w. rewrite (Hw0 eq_refl) in *.
      exists mem, (Some (0, e)%nat). repeat split; try reflexivity.
      exists 0%nat, e. repeat split; lia.
    + apply Nat.eqb_neq in Ew.
      assert (Hsl : List.length (slice mem r e) = (e - r)%nat) by (apply slice_length; lia).
      exists (write_at mem w (slice mem r e)), (Some (0, w + (e - r))%nat).
      split; [reflexivity|]. split.
      * split; [apply write_at_length; lia|apply skipn_write_at; lia].
      * exists 0%nat, (w + (e - r))%nat. repeat split; try lia.
        rewrite firstn_slice. rewrite <- Hsl. apply firstn_write_at. lia.
Qed.

Lemma uri_decode_mem_ok : forall mem e, (e <= List.length mem)%nat ->
  exists mem' res, uri_decode_mem mem e = (mem', res) /\
    List.length mem' = List.length mem /\ skipn e mem' = skipn e mem /\
    match uri_decode (firstn e mem) with
    | Some d => exists j, res = Some (0%nat, j) /\ (j <= e)%nat /\ slice mem' 0 j = d
    | None => res = None
    end.
Proof.
  intros mem e He.
  destruct (uri_decode_mem_aux_ok (S e) mem 0 e 0) as (mem' & res & Hrun & [Ho1 Ho2] & Hres);
    try lia.
  exists mem', res. unfold uri_decode_mem. rewrite uri_decode_lax. rewrite firstn_slice in Hres.
  split; [exact Hrun|]. split; [exact Ho1|]. split; [exact Ho2|].
  destruct (pct_lax (firstn e mem)) as [d|]; [|exact Hres].
  destruct Hres as (i & j & -> & _ & Hj & Hs & ->). exists j. repeat split; assumption.
Qed.

Lemma uri_decode_truncated : forall a d t, PctDecodes a d -> (List.length t < 2)%nat -> ~ In x25 t ->
  uri_decode (a ++ x25 :: t) = None.
Proof.
  intros a d t H Ht Hn. rewrite uri_decode_lax.
  induction H as [|c s d Hc H IH|h l vh vl s d Hh Hl H IH]; simpl.
  - destruct t as [|x [|y t]]; [reflexivity|reflexivity|simpl in Ht; lia].
  - apply beq_neq in Hc. rewrite Hc, IH. reflexivity.
  - rewrite IH. reflexivity.
Qed.

(* in-place decoding, from the specification's point of view *)
Lemma uri_decode_in_place : forall src rest d, PctDecodes src d ->
  exists mem' j, uri_decode_mem (src ++ rest) (List.length src) = (mem', Some (0%nat, j)) /\
    slice mem' 0 j = d /\ (j <= List.length src)%nat /\
    List.length mem' = List.length (src ++ rest) /\ skipn (List.length src) mem' = rest.
Proof.
  intros src rest d H.
  destruct (uri_decode_mem_ok (src ++ rest) (List.length src)) as (mem' & res & H1 & H2 & H3 & H4).
  { rewrite app_length. lia. }
  rewrite firstn_app, Nat.sub_diag, firstn_all in H4. simpl in H4. rewrite app_nil_r in H4.
  rewrite (uri_decode_spec _ _ H) in H4. destruct H4 as (j & -> & Hj & Hs).
  exists mem', j. repeat split; try assumption.
  rewrite H3, skipn_app, skipn_all, Nat.sub_diag. reflexivity.
Qed.
