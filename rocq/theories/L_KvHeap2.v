(* Any number of storages, made, cloned, added to and cleared in any order, do not share memory;
   the strings in them do. *)
From Verif Require Import M_Base L_Base M_KeyValue M_KvHeap L_KvHeap.

(* the storages of a program, in the order in which they were made *)
Inductive kv_act := KNew (n : nat) | KClone (i : nat) | KChange (i : nat) (c : kv_change).
Definition act_slices (st : kv_heap * list kv_slice) (a : kv_act) : kv_heap * list kv_slice :=
  let '(h, ss) := st in
  match a with
  | KNew n => let '(h', s) := ks_new h n in (h', ss ++ [s])
  | KClone i => match nth_error ss i with Some s => let '(h', c) := ks_clone h s in (h', ss ++ [c]) | None => st end
  | KChange i c => match nth_error ss i with Some s => let '(h', s') := change_slice h s c in (h', set_nth ss i s') | None => st end
  end.
(* the same with lists *)
Definition act_lists (ls : list (list pair_t)) (a : kv_act) : list (list pair_t) :=
  match a with
  | KNew _ => ls ++ [[]]
  | KClone i => match nth_error ls i with Some l => ls ++ [l] | None => ls end
  | KChange i c => match nth_error ls i with Some l => set_nth ls i (change_list l c) | None => ls end
  end.
Definition apart (h : kv_heap) (ss : list kv_slice) : Prop := Forall (slice_ok h) ss /\ NoDup (map ks_arr ss).

Lemma views_app : forall h x ss, Forall (slice_ok h) ss -> Forall (slice_ok (h ++ [x])) ss /\ map (ks_view (h ++ [x])) ss = map (ks_view h) ss.
Proof.
  intros h x ss H. induction H as [|s ss [H1 H2] H [IH1 IH2]]; [split; [constructor|reflexivity]|].
  assert (E : nth (ks_arr s) (h ++ [x]) [] = nth (ks_arr s) h []) by (apply app_nth1; exact H1). split.
  - constructor; [|exact IH1]. unfold slice_ok. rewrite E, app_length. lia.
  - cbn [map]. rewrite IH2. unfold ks_view at 1. rewrite E. reflexivity.
Qed.
Lemma nodup_snoc : forall (A : Type) (l : list A) x, NoDup l -> ~ In x l -> NoDup (l ++ [x]).
Proof.
  intros A l x H Hx. induction H as [|y l Hy H IH]; [constructor; [intros []|constructor]|]. cbn [app]. constructor.
  - intros Hi. apply in_app_or in Hi. destruct Hi as [Hi|[Hi|[]]]; [exact (Hy Hi)|]. subst. apply Hx. left. reflexivity.
  - apply IH. intros Hi. apply Hx. right. exact Hi.
Qed.
Lemma apart_snoc : forall h ss x n, apart h ss -> (n <= List.length x)%nat ->
  apart (h ++ [x]) (ss ++ [KvSlice (List.length h) n]) /\
  map (ks_view (h ++ [x])) (ss ++ [KvSlice (List.length h) n]) = map (ks_view h) ss ++ [firstn n x].
Proof.
  intros h ss x n [H1 H2] Hn. destruct (views_app h x ss H1) as [V1 V2].
  assert (E : nth (List.length h) (h ++ [x]) [] = x) by (rewrite app_nth2 by lia; rewrite Nat.sub_diag; reflexivity).
  split; [split|].
  - apply Forall_app. split; [exact V1|]. constructor; [|constructor]. unfold slice_ok. cbn [ks_arr ks_len]. rewrite E, app_length. cbn [List.length]. lia.
  - rewrite map_app. cbn [map ks_arr]. apply nodup_snoc; [exact H2|]. intros Hi. apply in_map_iff in Hi. destruct Hi as (s & Es & Hs).
    rewrite Forall_forall in H1. destruct (H1 s Hs) as [Hlt _]. lia.
  - rewrite map_app, V2. cbn [map]. unfold ks_view at 2. cbn [ks_arr ks_len]. rewrite E. reflexivity.
Qed.
Lemma change_others : forall h h' s s' c i ss, apart h ss -> nth_error ss i = Some s -> change_slice h s c = (h', s') ->
  apart h' (set_nth ss i s') /\ map (ks_view h') (set_nth ss i s') = set_nth (map (ks_view h) ss) i (change_list (ks_view h s) c).
Proof.
  intros h h' s s' c i ss [H1 H2] Hi E.
  assert (Hs : slice_ok h s) by (rewrite Forall_forall in H1; apply H1; apply (nth_error_In _ _ Hi)).
  destruct (change_ok h s c h' s' Hs E) as (C1 & C2 & C3). clear E.
  revert i Hi. induction ss as [|a ss IH]; intros [|i] Hi; try discriminate Hi; cbn [nth_error] in Hi; inversion H1 as [|? ? A1 A2]; subst; inversion H2 as [|? ? B1 B2]; subst.
  - injection Hi as ->. cbn [set_nth map]. rewrite C2.
    assert (K : Forall (slice_ok h') ss /\ map (ks_view h') ss = map (ks_view h) ss /\ ~ In (ks_arr s') (map ks_arr ss)).
    { clear IH H1 H2 B2. induction A2 as [|t ss Ht A2 IH]; [split; [constructor|split; [reflexivity|intros []]]|].
      destruct (C3 t Ht) as (D1 & D2 & D3); [intros Q; apply B1; left; exact Q|].
      destruct IH as (I1 & I2 & I3); [intros Q; apply B1; right; exact Q|].
      split; [constructor; assumption|]. split; [cbn [map]; rewrite D2, I2; reflexivity|]. intros [Q|Q]; [exact (D3 Q)|exact (I3 Q)]. }
    destruct K as (K1 & K2 & K3). rewrite K2. split; [|reflexivity]. split; [constructor; assumption|]. cbn [map]. constructor; assumption.
  - cbn [set_nth map]. destruct (IH A2 B2 i Hi) as ((I1 & I2) & I3). rewrite I3.
    assert (Q : ks_arr a <> ks_arr s) by (intros Q; apply B1; rewrite Q; apply in_map; apply (nth_error_In _ _ Hi)).
    destruct (C3 a A1 Q) as (D1 & D2 & D3). rewrite D2. split; [|reflexivity]. split; [constructor; assumption|]. cbn [map]. constructor; [|exact I2].
    intros Hin. apply in_map_iff in Hin. destruct Hin as (t & Et & Ht). clear - Et Ht B1 D3 Hi.
    revert i Hi Ht. induction ss as [|b ss IH]; intros [|i] Hi Ht; try discriminate Hi; cbn [set_nth] in Ht.
    + destruct Ht as [<-|Ht]; [apply D3; symmetry; exact Et|]. apply B1. right. rewrite <- Et. apply in_map. exact Ht.
    + destruct Ht as [<-|Ht]; [apply B1; left; exact Et|]. apply (IH ltac:(intros Q; apply B1; right; exact Q) i Hi Ht).
Qed.
Lemma act_ok : forall h ss a h' ss', apart h ss -> act_slices (h, ss) a = (h', ss') ->
  apart h' ss' /\ map (ks_view h') ss' = act_lists (map (ks_view h) ss) a.
Proof.
  intros h ss [n|i|i c] h' ss' HA E; cbn [act_slices act_lists] in *.
  - unfold ks_new in E. injection E as <- <-. apply (apart_snoc h ss (repeat no_pair n) 0 HA). lia.
  - rewrite nth_error_map. destruct (nth_error ss i) as [s|] eqn:Ei; cbn [option_map].
    + unfold ks_clone in E. injection E as <- <-. destruct (apart_snoc h ss (ks_view h s) (List.length (ks_view h s)) HA (le_n _)) as [P1 P2].
      rewrite firstn_all in P2. split; assumption.
    + injection E as <- <-. split; [exact HA|reflexivity].
  - rewrite nth_error_map. destruct (nth_error ss i) as [s|] eqn:Ei; cbn [option_map].
    + destruct (change_slice h s c) as [h1 s1] eqn:Ec. injection E as <- <-. apply (change_others h h1 s s1 c i ss HA Ei Ec).
    + injection E as <- <-. split; [exact HA|reflexivity].
Qed.
Theorem storages : forall acts h ss, fold_left act_slices acts ([], []) = (h, ss) -> map (ks_view h) ss = fold_left act_lists acts [].
Proof.
  intros acts. assert (G : forall acts h0 ss0 h ss, apart h0 ss0 -> fold_left act_slices acts (h0, ss0) = (h, ss) ->
    map (ks_view h) ss = fold_left act_lists acts (map (ks_view h0) ss0)).
  { clear. induction acts as [|a acts IH]; intros h0 ss0 h ss HA E; cbn [fold_left] in *; [injection E as <- <-; reflexivity|].
    destruct (act_slices (h0, ss0) a) as [h1 ss1] eqn:Ea. destruct (act_ok h0 ss0 a h1 ss1 HA Ea) as [A1 A2]. rewrite <- A2. apply (IH h1 ss1 h ss A1 E). }
  intros h ss E. apply (G acts [] [] h ss); [split; constructor|exact E].
Qed.
(* ---- the strings ---- *)
Lemma nth_error_firstn' : forall (A : Type) n (l : list A) i, nth_error (firstn n l) i = if Nat.ltb i n then nth_error l i else None.
Proof.
  induction n as [|n IH]; intros l i; [destruct i; reflexivity|]. destruct l as [|x l]; [destruct i; cbn [firstn nth_error]; destruct (Nat.ltb _ _); reflexivity|].
  destruct i as [|i]; [reflexivity|]. cbn [firstn nth_error]. rewrite IH. reflexivity.
Qed.
Lemma nth_error_skipn' : forall (A : Type) n (l : list A) i, nth_error (skipn n l) i = nth_error l (n + i).
Proof. induction n as [|n IH]; intros l i; [reflexivity|]. destruct l as [|x l]; [destruct i; reflexivity|]. apply IH. Qed.
Lemma list_ext : forall (A : Type) (l m : list A), (forall i, nth_error l i = nth_error m i) -> l = m.
Proof.
  induction l as [|x l IH]; intros [|y m] H; [reflexivity|discriminate (H 0%nat)|discriminate (H 0%nat)|].
  pose proof (H 0%nat) as H0. injection H0 as ->. f_equal. apply IH. intros i. apply (H (S i)).
Qed.
Theorem strings_kept : forall mem new o l, (o + l <= List.length mem)%nat ->
  (sref_read (mem_reuse mem new) (o, l) = sref_read mem (o, l) <->
   forall i, (o <= i < o + l)%nat -> (i < List.length new)%nat -> nth_error new i = nth_error mem i).
Proof.
  intros mem new o l Hl.
  assert (R : forall i, nth_error (mem_reuse mem new) i = if Nat.ltb i (List.length new) then nth_error new i else nth_error mem i).
  { intros i. unfold mem_reuse. destruct (Nat.ltb_spec i (List.length new)) as [L|L]; [apply nth_error_app1; exact L|].
    rewrite nth_error_app2 by exact L. rewrite nth_error_skipn'. f_equal. lia. }
  unfold sref_read. cbn [fst snd]. split.
  - intros E i Hi Hn. apply (f_equal (fun x => nth_error x (i - o))) in E. rewrite !nth_error_firstn', !nth_error_skipn' in E.
    destruct (Nat.ltb_spec (i - o) l) as [L|L]; [|lia]. replace (o + (i - o))%nat with i in E by lia. rewrite R in E. destruct (Nat.ltb_spec i (List.length new)); [exact E|lia].
  - intros H. apply list_ext. intros i. rewrite !nth_error_firstn', !nth_error_skipn'. destruct (Nat.ltb_spec i l) as [L|L]; [|reflexivity].
    rewrite R. destruct (Nat.ltb_spec (o + i) (List.length new)); [|reflexivity]. apply H; lia.
Qed.
