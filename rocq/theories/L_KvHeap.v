(* Cloned storages do not share memory. *)
From Verif Require Import M_Base L_Base M_KeyValue M_KvHeap.

Lemma set_nth_length : forall (A : Type) (l : list A) i x, List.length (set_nth l i x) = List.length l.
Proof. induction l as [|y l IH]; intros [|i] x; simpl; auto. Qed.
Lemma nth_set_nth_eq : forall (A : Type) (l : list A) i x d, (i < List.length l)%nat -> nth i (set_nth l i x) d = x.
Proof. induction l as [|y l IH]; intros [|i] x d H; simpl in *; try lia; auto. apply IH. lia. Qed.
Lemma nth_set_nth_neq : forall (A : Type) (l : list A) i j x d, i <> j -> nth j (set_nth l i x) d = nth j l d.
Proof. induction l as [|y l IH]; intros [|i] [|j] x d H; simpl; auto; try congruence. Qed.
Lemma firstn_set_nth : forall (A : Type) (l : list A) i x, (i < List.length l)%nat ->
  firstn (S i) (set_nth l i x) = firstn i l ++ [x].
Proof. induction l as [|y l IH]; intros [|i] x H; cbn [List.length] in H; try lia; [reflexivity|].
  cbn [set_nth]. change (firstn (S (S i)) (y :: set_nth l i x)) with (y :: firstn (S i) (set_nth l i x)).
  rewrite IH by lia. reflexivity. Qed.

Definition slice_ok (h : kv_heap) (s : kv_slice) : Prop :=
  (ks_arr s < List.length h)%nat /\ (ks_len s <= List.length (nth (ks_arr s) h []))%nat.

Lemma append_ok : forall grow h s x h' s', slice_ok h s -> ks_append grow h s x = (h', s') ->
  slice_ok h' s' /\ ks_view h' s' = ks_view h s ++ [x] /\ (List.length h <= List.length h')%nat /\
  (ks_arr s' = ks_arr s \/ (List.length h <= ks_arr s')%nat) /\
  forall t, slice_ok h t -> ks_arr t <> ks_arr s -> slice_ok h' t /\ ks_view h' t = ks_view h t /\ ks_arr t <> ks_arr s'.
Proof.
  intros grow h s x h' s' [H1 H2] E. unfold ks_append in E.
  destruct (Nat.ltb_spec (ks_len s) (List.length (nth (ks_arr s) h []))) as [L|L]; injection E as <- <-.
  - unfold slice_ok, ks_view; cbn [ks_arr ks_len]. rewrite set_nth_length, !nth_set_nth_eq by exact H1.
    rewrite set_nth_length. split; [lia|]. split; [apply firstn_set_nth; exact L|]. split; [lia|].
    split; [left; reflexivity|]. intros t [T1 T2] Hne.
    rewrite !nth_set_nth_neq by congruence. repeat split; try assumption.
  - assert (El : ks_len s = List.length (nth (ks_arr s) h [])) by lia.
    unfold slice_ok, ks_view; cbn [ks_arr ks_len]. rewrite app_length. cbn [List.length].
    assert (Hn : nth (List.length h) (h ++ [firstn (ks_len s) (nth (ks_arr s) h []) ++ x :: repeat no_pair grow]) []
               = firstn (ks_len s) (nth (ks_arr s) h []) ++ x :: repeat no_pair grow).
    { rewrite app_nth2 by lia. rewrite Nat.sub_diag. reflexivity. }
    rewrite Hn. assert (Hf : firstn (ks_len s) (nth (ks_arr s) h []) = nth (ks_arr s) h [])
      by (rewrite El; apply firstn_all). rewrite Hf.
    split; [split; [lia|]; rewrite app_length; cbn [List.length]; lia|].
    split. { rewrite El. rewrite firstn_app. rewrite firstn_all2 by lia.
             replace (S (List.length (nth (ks_arr s) h [])) - List.length (nth (ks_arr s) h []))%nat with 1%nat by lia.
             reflexivity. }
    split; [lia|]. split; [right; lia|]. intros t [T1 T2] Hne. rewrite app_nth1 by lia.
    repeat split; try assumption; lia.
Qed.
Lemma clone_ok : forall h s h' s', slice_ok h s -> ks_clone h s = (h', s') ->
  slice_ok h' s' /\ slice_ok h' s /\ ks_view h' s' = ks_view h s /\ ks_view h' s = ks_view h s /\ ks_arr s <> ks_arr s'.
Proof.
  intros h s h' s' [H1 H2] E. unfold ks_clone in E. injection E as <- <-.
  assert (Hn : nth (List.length h) (h ++ [ks_view h s]) [] = ks_view h s).
  { rewrite app_nth2 by lia. rewrite Nat.sub_diag. reflexivity. }
  assert (Hs : nth (ks_arr s) (h ++ [ks_view h s]) [] = nth (ks_arr s) h []) by (apply app_nth1; exact H1).
  split. { unfold slice_ok. cbn [ks_arr ks_len]. rewrite Hn, app_length. cbn [List.length]. lia. }
  split. { unfold slice_ok. rewrite Hs, app_length. lia. }
  split. { unfold ks_view at 1. cbn [ks_arr ks_len]. rewrite Hn. apply firstn_all. }
  split. { unfold ks_view at 1. rewrite Hs. reflexivity. }
  cbn [ks_arr]. lia.
Qed.

(* changes made through the original (true) or the clone (false) *)
Inductive kv_change := ChAdd (grow : nat) (k v : bytes) | ChClear.
Definition change_slice (h : kv_heap) (s : kv_slice) (c : kv_change) : kv_heap * kv_slice :=
  match c with ChAdd grow k v => ks_add grow h s k v | ChClear => (h, ks_clear s) end.
Definition change_list (l : list pair_t) (c : kv_change) : list pair_t :=
  match c with ChAdd _ k v => l ++ [(k, v)] | ChClear => [] end.
Fixpoint run_changes (h : kv_heap) (a b : kv_slice) (cs : list (bool * kv_change)) : kv_heap * kv_slice * kv_slice :=
  match cs with
  | [] => (h, a, b)
  | (true, c) :: cs' => let '(h', a') := change_slice h a c in run_changes h' a' b cs'
  | (false, c) :: cs' => let '(h', b') := change_slice h b c in run_changes h' a b' cs'
  end.
Definition changes_of (who : bool) (cs : list (bool * kv_change)) : list kv_change :=
  map snd (filter (fun c => Bool.eqb (fst c) who) cs).

Lemma change_ok : forall h s c h' s', slice_ok h s -> change_slice h s c = (h', s') ->
  slice_ok h' s' /\ ks_view h' s' = change_list (ks_view h s) c /\
  forall t, slice_ok h t -> ks_arr t <> ks_arr s -> slice_ok h' t /\ ks_view h' t = ks_view h t /\ ks_arr t <> ks_arr s'.
Proof.
  intros h s [grow k v|] h' s' H E; cbn [change_slice] in E.
  - destruct (append_ok _ _ _ _ _ _ H E) as (A1 & A2 & _ & _ & A5). split; [exact A1|]. split; [exact A2|exact A5].
  - injection E as <- <-. destruct H as [H1 H2]. split; [split; cbn [ks_arr ks_len ks_clear]; [exact H1|lia]|].
    split; [reflexivity|]. intros t Ht Hne. auto.
Qed.
Lemma run_changes_ok : forall cs h a b h' a' b', slice_ok h a -> slice_ok h b -> ks_arr a <> ks_arr b ->
  run_changes h a b cs = (h', a', b') ->
  ks_view h' a' = fold_left change_list (changes_of true cs) (ks_view h a) /\
  ks_view h' b' = fold_left change_list (changes_of false cs) (ks_view h b).
Proof.
  induction cs as [|[w c] cs IH]; intros h a b h' a' b' Ha Hb Hne E; cbn [run_changes] in E.
  - injection E as <- <- <-. split; reflexivity.
  - destruct w.
    + destruct (change_slice h a c) as [h1 a1] eqn:E1. destruct (change_ok _ _ _ _ _ Ha E1) as (C1 & C2 & C3).
      destruct (C3 b Hb (not_eq_sym Hne)) as (D1 & D2 & D3).
      destruct (IH _ _ _ _ _ _ C1 D1 (not_eq_sym D3) E) as [I1 I2].
      unfold changes_of. cbn [filter fst Bool.eqb map snd fold_left]. rewrite <- C2, <- D2. split; assumption.
    + destruct (change_slice h b c) as [h1 b1] eqn:E1. destruct (change_ok _ _ _ _ _ Hb E1) as (C1 & C2 & C3).
      destruct (C3 a Ha Hne) as (D1 & D2 & D3).
      destruct (IH _ _ _ _ _ _ D1 C1 D3 E) as [I1 I2].
      unfold changes_of. cbn [filter fst Bool.eqb map snd fold_left]. rewrite <- C2, <- D2. split; assumption.
Qed.
Lemma clone_independent : forall h s h1 c cs h' s' c', slice_ok h s -> ks_clone h s = (h1, c) ->
  run_changes h1 s c cs = (h', s', c') ->
  ks_view h' s' = fold_left change_list (changes_of true cs) (ks_view h s) /\
  ks_view h' c' = fold_left change_list (changes_of false cs) (ks_view h s).
Proof.
  intros h s h1 c cs h' s' c' H E R. destruct (clone_ok _ _ _ _ H E) as (C1 & C2 & C3 & C4 & C5).
  destruct (run_changes_ok _ _ _ _ _ _ _ C2 C1 C5 R) as [R1 R2]. rewrite C4 in R1. rewrite C3 in R2. split; assumption.
Qed.
