(* Lemmas for C104. *)
From Coq Require Import Lia List.
Import ListNotations.
From Verif Require Import M_Base M_Status M_Method M_Proto M_KeyValue M_Query M_Request M_Parser M_Client M_Body
  M_Response M_Serializer M_Suit S_KeyValue S_Chunk S_Head S_Parser S_Body S_Response S_Conn L_Conn2 L_Conn3 L_ConnProps M_Timed S_Timed.

Lemma arrived_prefix t s : exists k, arrived t s = firstn k s /\ (k <= List.length s)%nat /\ Forall (fun x => (fst x <= t)%Z) (arrived t s).
Proof.
  induction s as [|[u b] s (k & E & L & F)]; cbn [arrived]; [exists 0%nat; repeat split; [apply Nat.le_refl|constructor]|].
  destruct (Z.leb_spec u t) as [H|H].
  - exists (S k). split; [cbn; rewrite E; reflexivity|]. split; [cbn; lia|]. constructor; [exact H|exact F].
  - exists 0%nat. repeat split; [cbn; lia|constructor].
Qed.
Lemma steady_weaken gap last last' s : Steady gap last s -> (last <= last')%Z -> (forall t b s', s = (t, b) :: s' -> (last' <= t)%Z) -> (0 <= gap)%Z -> Steady gap last' s.
Proof. destruct s as [|[t b] s]; [trivial|]. intros ((H1 & H2) & H3) L F G. cbn. specialize (F t b s eq_refl). repeat split; [lia|lia|exact H3]. Qed.
Lemma steady_skip gap : forall k last s, Steady gap last s -> (k <= List.length s)%nat -> Steady gap (last_time last (firstn k s)) (skipn k s).
Proof.
  induction k as [|k IH]; intros last s H L; [exact H|]. destruct s as [|[t b] s]; [cbn in L; lia|]. destruct H as [_ H].
  cbn [firstn skipn last_time fold_left fst]. apply (IH t s H). cbn in L. lia.
Qed.
Lemma last_time_le t : forall s last, (last <= t)%Z -> Forall (fun x => (fst x <= t)%Z) s -> (last_time last s <= t)%Z.
Proof. induction s as [|[u b] s IH]; intros last H F; [exact H|]. inversion F; subst. cbn. apply IH; assumption. Qed.
Lemma Forall_firstn {A} (P : A -> Prop) k l : Forall P l -> Forall P (firstn k l).
Proof. revert l. induction k as [|k IH]; intros l H; [constructor|]. destruct H; [constructor|]. cbn. constructor; [assumption|apply IH; assumption]. Qed.
(* one read of a steady peer *)
Lemma steady_read size timeout want now s last : (0 < timeout)%Z -> (1 <= size)%nat -> (last <= now)%Z -> Steady timeout last (so_bytes s) -> so_bytes s <> [] ->
  exists k last' t, timed_read size timeout want now s = ((map snd (firstn k (so_bytes s)), None), t, Socket (skipn k (so_bytes s)) (so_end s)) /\
    (1 <= k)%nat /\ (k <= size)%nat /\ (k <= List.length (so_bytes s))%nat /\ (last' <= t)%Z /\ (now <= t)%Z /\ last' = last_time last (firstn k (so_bytes s)) /\ Steady timeout last' (skipn k (so_bytes s)).
Proof.
  intros HT HS HL St Ne. unfold timed_read. rewrite (proj2 (Z.leb_gt timeout 0) HT). destruct s as [bs en]. cbn [so_bytes so_end] in *.
  destruct bs as [|[t b] bs]; [contradiction|]. pose proof St as ((H1 & H2) & _). rewrite (proj2 (Z.leb_le t (now + timeout))) by lia.
  destruct (arrived_prefix (Z.max now t) ((t, b) :: bs)) as (j & E & Lj & F).
  assert (Hj : (1 <= List.length (arrived (Z.max now t) ((t, b) :: bs)))%nat).
  { cbn [arrived]. rewrite (proj2 (Z.leb_le t (Z.max now t))) by lia. cbn. lia. }
  assert (Hj2 : (List.length (arrived (Z.max now t) ((t, b) :: bs)) <= j)%nat) by (rewrite E; apply firstn_le_length).
  set (k := Nat.min (Nat.max 1 want) (Nat.min size (List.length (arrived (Z.max now t) ((t, b) :: bs))))) in *.
  assert (Hk : (1 <= k /\ k <= size /\ k <= List.length (arrived (Z.max now t) ((t, b) :: bs)))%nat) by (unfold k; lia). clearbody k.
  exists k, (last_time last (firstn k ((t, b) :: bs))), (Z.max now t). split; [reflexivity|]. split; [lia|]. split; [lia|]. split; [lia|]. split.
  - apply last_time_le; [lia|]. replace (firstn k ((t, b) :: bs)) with (firstn k (arrived (Z.max now t) ((t, b) :: bs))).
    + apply Forall_firstn. exact F.
    + rewrite E. rewrite firstn_firstn. f_equal. lia.
  - split; [lia|]. split; [reflexivity|]. apply steady_skip; [exact St|lia].
Qed.
Lemma firstn_skip_map {A B} (f : A -> B) k (l : list A) : map f l = map f (firstn k l) ++ map f (skipn k l).
Proof. rewrite <- map_app, firstn_skipn. reflexivity. Qed.
Theorem steady_data size timeout : (0 < timeout)%Z -> (1 <= size)%nat ->
  forall steps now s last, Forall (fun x => (0 <= fst x)%Z) steps -> (last <= now)%Z -> Steady timeout last (so_bytes s) ->
  exists oks rest, timed_reads size timeout steps now s = oks ++ rest /\
    Forall (fun x => snd (fst x) = None /\ (1 <= List.length (fst (fst x)) <= size)%nat) oks /\
    (exists left, map snd (so_bytes s) = concat (map (fun x => fst (fst x)) oks) ++ left /\ (left = [] \/ rest = [])) /\
    (List.length (so_bytes s) <= List.length steps -> concat (map (fun x => fst (fst x)) oks) = map snd (so_bytes s))%nat /\
    Forall (fun x => (now <= snd x)%Z) oks.
Proof.
  intros HT HS steps. induction steps as [|[d want] steps IH]; intros now s last HD HL St.
  - exists [], []. split; [reflexivity|]. split; [constructor|]. split; [exists (map snd (so_bytes s)); split; [reflexivity|right; reflexivity]|]. split; [|constructor].
    intros L. destruct (so_bytes s); [reflexivity|cbn in L; lia].
  - inversion HD as [|? ? Hd HD']; subst. cbn [fst] in Hd. destruct (so_bytes s) as [|x bs] eqn:EB.
    + exists [], (timed_reads size timeout ((d, want) :: steps) now s). split; [reflexivity|]. split; [constructor|]. split; [exists []; split; [reflexivity|left; reflexivity]|]. split; [reflexivity|constructor].
    + destruct (steady_read size timeout want (now + d) s last HT HS) as (k & last' & t & E & K1 & K2 & K3 & L' & Nt & _ & S'); [lia|rewrite EB; exact St|rewrite EB; discriminate|].
      cbn [timed_reads]. rewrite E. destruct (IH t (Socket (skipn k (so_bytes s)) (so_end s)) last' HD' L' S') as (oks & rest & ER & F & (left & EL & DL) & FA & FT). cbn [so_bytes] in *.
      exists (((map snd (firstn k (so_bytes s)), None), t) :: oks), rest. split; [rewrite ER; reflexivity|]. split.
      * constructor; [|exact F]. cbn [fst snd]. split; [reflexivity|]. rewrite map_length, firstn_length. lia.
      * split; [exists left; split; [|exact DL]|].
        -- rewrite <- EB, (firstn_skip_map snd k (so_bytes s)), EL. cbn [map concat fst]. rewrite app_assoc. reflexivity.
        -- split.
           ++ intros L. rewrite <- EB. cbn [map concat fst]. rewrite FA by (rewrite skipn_length; cbn [List.length] in L; assert (EL' := f_equal (@List.length _) EB); cbn [List.length] in EL'; lia). symmetry. apply firstn_skip_map.
           ++ constructor; [cbn; lia|]. eapply Forall_impl; [|exact FT]. cbn. lia.
Qed.
Lemma net_data_oks : forall (oks : list ((bytes * option neterr) * Z)) rest, Forall (fun x => snd (fst x) = None) oks ->
  net_data (map fst (oks ++ rest)) = concat (map (fun x => fst (fst x)) oks) ++ net_data (map fst rest).
Proof.
  induction oks as [|[[d e] t] oks IH]; intros rest F; [reflexivity|]. inversion F as [|? ? E F']; subst. cbn [fst snd] in E. subst e.
  cbn [app map fst net_data concat]. rewrite IH by exact F'. apply app_assoc.
Qed.
Lemma steady_whole size timeout : (0 < timeout)%Z -> (1 <= size)%nat ->
  forall steps now s last, Forall (fun x => (0 <= fst x)%Z) steps -> (last <= now)%Z -> Steady timeout last (so_bytes s) -> (List.length (so_bytes s) < List.length steps)%nat ->
  exists oks d want steps' rest, timed_reads size timeout steps now s = oks ++ last_read timeout (ended now oks + d) (so_end s) :: rest /\
    skipn (List.length oks) steps = (d, want) :: steps' /\
    Forall (fun x => snd (fst x) = None /\ (1 <= List.length (fst (fst x)) <= size)%nat) oks /\
    data_of oks = map snd (so_bytes s) /\ (now <= ended now oks)%Z /\ (last_time last (so_bytes s) <= ended now oks)%Z.
Proof.
  intros HT HS steps. induction steps as [|[d want] steps IH]; intros now s last HD HL St HLen; [cbn in HLen; lia|].
  inversion HD as [|? ? Hd HD']; subst. cbn [fst] in Hd. destruct (so_bytes s) as [|x bs] eqn:EB.
  - exists [], d, want, steps. cbn [timed_reads]. unfold timed_read. rewrite (proj2 (Z.leb_gt timeout 0) HT), EB. unfold ended, last_read. cbn [fold_left app].
    destruct (so_end s) as [[u e]|]; [destruct (u <=? now + d + timeout)%Z|]; (eexists; split; [reflexivity|]; split; [reflexivity|]; split; [constructor|]; split; [reflexivity|]; split; [lia|exact HL]).
  - destruct (steady_read size timeout want (now + d) s last HT HS) as (k & last' & t & E & K1 & K2 & K3 & L' & Nt & EL & S'); [lia|rewrite EB; exact St|rewrite EB; discriminate|].
    cbn [timed_reads]. rewrite E. destruct (IH t (Socket (skipn k (so_bytes s)) (so_end s)) last' HD' L' S') as (oks & d' & want' & steps' & rest & ER & EN & F & ED & ET & EK).
    { cbn [so_bytes]. rewrite skipn_length, EB. cbn [List.length] in *. lia. }
    cbn [so_bytes so_end] in *. exists (((map snd (firstn k (so_bytes s)), None), t) :: oks), d', want', steps', rest.
    split; [rewrite ER; reflexivity|]. split; [exact EN|]. split.
    { constructor; [|exact F]. cbn [fst snd]. split; [reflexivity|]. rewrite map_length, firstn_length. lia. }
    split; [|split].
    + rewrite <- EB. unfold data_of in *. cbn [map concat fst]. rewrite ED. symmetry. apply firstn_skip_map.
    + unfold ended in *. cbn [fold_left snd]. lia.
    + rewrite <- EB. unfold ended in *. cbn [fold_left snd]. subst last'. unfold last_time in *. rewrite <- fold_left_app, firstn_skipn in EK. exact EK.
Qed.
Lemma read_bound size timeout want now s ev t s' : timed_read size timeout want now s = (ev, t, s') -> (now <= t /\ t <= now + Z.max 0 timeout)%Z.
Proof.
  unfold timed_read. destruct (Z.leb_spec timeout 0); [intros [= <- <- <-]; lia|]. destruct (so_bytes s) as [|[u b] bs].
  - destruct (so_end s) as [[u e]|]; [destruct (Z.leb_spec u (now + timeout))|]; intros [= <- <- <-]; lia.
  - destruct (Z.leb_spec u (now + timeout)); intros [= <- <- <-]; lia.
Qed.
Lemma reads_bound size timeout : forall steps now s, (now + total steps <= ended now (timed_reads size timeout steps now s) <= now + total steps + Z.of_nat (List.length steps) * Z.max 0 timeout)%Z.
Proof.
  induction steps as [|[d want] steps IH]; intros now s; [unfold total, ended; cbn; lia|]. cbn [timed_reads]. destruct (timed_read size timeout want (now + d) s) as [[ev t] s'] eqn:E.
  apply read_bound in E. specialize (IH t s'). unfold ended in *. unfold total in *. cbn [fold_left fold_right snd fst List.length]. fold (total steps) in *. lia.
Qed.
Lemma skipn_add {A} : forall b a (l : list A), skipn (b + a) l = skipn a (skipn b l).
Proof. induction b as [|b IH]; intros a l; [reflexivity|]. destruct l; [cbn; rewrite skipn_nil; reflexivity|]. cbn. apply IH. Qed.
(* nobody is cut off before the timeout has passed without a byte *)
Lemma not_early size timeout : (0 < timeout)%Z -> (1 <= size)%nat -> forall steps now s oks t rest,
  match so_end s with Some (_, e) => e <> NOther | None => True end ->
  timed_reads size timeout steps now s = oks ++ (([], Some NOther), t) :: rest -> Forall (fun x => snd (fst x) = None) oks ->
  exists d want steps', skipn (List.length oks) steps = (d, want) :: steps' /\ t = (ended now oks + d + timeout)%Z /\
  data_of oks = firstn (List.length (data_of oks)) (map snd (so_bytes s)) /\
  match skipn (List.length (data_of oks)) (so_bytes s) with (u, _) :: _ => (t < u)%Z | [] => match so_end s with Some (u, _) => (t < u)%Z | None => True end end.
Proof.
  intros HT HS steps. induction steps as [|[d want] steps IH]; intros now s oks t rest HE HR F; [cbn in HR; destruct oks; discriminate|].
  cbn [timed_reads] in HR. destruct (timed_read size timeout want (now + d) s) as [[ev u] s'] eqn:E. destruct oks as [|[[dt er] tt] oks].
  - cbn [app] in HR. injection HR as -> -> _. exists d, want, steps. split; [reflexivity|]. unfold ended, data_of. cbn [fold_left map concat List.length firstn skipn].
    unfold timed_read in E. rewrite (proj2 (Z.leb_gt timeout 0) HT) in E. destruct (so_bytes s) as [|[v b] bs].
    + destruct (so_end s) as [[v e]|]; [destruct (Z.leb_spec v (now + d + timeout))|].
      * injection E as -> _ _. congruence.
      * injection E as E _. split; [lia|]. split; [reflexivity|lia].
      * injection E as E _. split; [lia|]. split; [reflexivity|exact I].
    + destruct (Z.leb_spec v (now + d + timeout)); [discriminate|]. injection E as E _. split; [lia|]. split; [reflexivity|lia].
  - cbn [app] in HR. injection HR as HR1 HR2 HR. inversion F as [|? ? Fe F']; subst. cbn [fst snd] in Fe. subst er.
    assert (Es : exists k, s' = Socket (skipn k (so_bytes s)) (so_end s) /\ dt = map snd (firstn k (so_bytes s)) /\ (k <= List.length (so_bytes s))%nat).
    { unfold timed_read in E. rewrite (proj2 (Z.leb_gt timeout 0) HT) in E. destruct (so_bytes s) as [|[v b] bs] eqn:EB.
      - destruct (so_end s) as [[v e]|]; [destruct (v <=? now + d + timeout)%Z|]; discriminate.
      - destruct (v <=? now + d + timeout)%Z; [|discriminate]. injection E as E1 _ E2. eexists. split; [symmetry; exact E2|]. split; [symmetry; exact E1|].
        destruct (arrived_prefix (Z.max (now + d) v) ((v, b) :: bs)) as (j & EA & Lj & _). rewrite EA at 1. rewrite firstn_length. lia. }
    destruct Es as (k & -> & -> & Lk). destruct (IH tt (Socket (skipn k (so_bytes s)) (so_end s)) oks t rest HE HR F') as (d' & want' & steps' & E1 & E2 & E3 & E4). cbn [so_bytes so_end] in *.
    exists d', want', steps'. split; [exact E1|]. split; [exact E2|]. unfold data_of in *. cbn [map concat fst]. rewrite app_length, map_length, firstn_length, Nat.min_l by exact Lk.
    split.
    + rewrite (firstn_skip_map snd k (so_bytes s)). rewrite firstn_app, map_length, firstn_length, Nat.min_l by exact Lk.
      rewrite (firstn_all2 (map snd (firstn k (so_bytes s)))) by (rewrite map_length, firstn_length; lia). f_equal. rewrite E3 at 1. f_equal. lia.
    + rewrite skipn_add. exact E4.
Qed.
Lemma reads_off size timeout : (timeout <= 0)%Z -> forall steps now s, Forall (fun x => fst x = ([], Some NOther)) (timed_reads size timeout steps now s) /\ ended now (timed_reads size timeout steps now s) = (now + total steps)%Z.
Proof.
  intros HT. induction steps as [|[d want] steps IH]; intros now s; [split; [constructor|unfold ended, total; cbn; lia]|].
  cbn [timed_reads]. unfold timed_read. rewrite (proj2 (Z.leb_le timeout 0) HT). destruct (IH (now + d)%Z s) as [F E]. split; [constructor; [reflexivity|exact F]|].
  unfold ended, total in *. cbn [fold_left fold_right snd fst]. rewrite E. lia.
Qed.

(* ---- whole connections ---- *)
Lemma steady_stream size timeout steps now s last wres : (0 < timeout)%Z -> (1 <= size)%nat -> Forall (fun x => (0 <= fst x)%Z) steps -> (last <= now)%Z ->
  Steady timeout last (so_bytes s) -> (List.length (so_bytes s) < List.length steps)%nat -> stream (timed_client size timeout steps now s wres) = map snd (so_bytes s).
Proof.
  intros HT HS HD HL St HLen. destruct (steady_whole size timeout HT HS steps now s last HD HL St HLen) as (oks & d & want & steps' & rest & E & _ & F & ED & _).
  unfold stream, timed_client, new_client. cbn [cl_pending cl_net app]. rewrite E, net_data_oks.
  - unfold data_of in ED. rewrite ED. unfold last_read. cbn [map]. destruct (so_end s) as [[u e]|]; [destruct (u <=? ended now oks + d + timeout)%Z|]; cbn [fst net_data]; apply app_nil_r.
  - eapply Forall_impl; [|exact F]. cbn. tauto.
Qed.
(* ---- the slow client ---- *)
Definition slow_head (n : nat) : head := Head GET (B "/") (B "/") None HTTP11 true [HLine (B "Content-Length") 1 (repeat x30 (S n)) true] true.
Definition slow_text (n : nat) : bytes := B "GET / HTTP/1.1" ++ CRLF ++ B "Content-Length: " ++ repeat x30 n.
Lemma dec_zeros n : dec_value (repeat x30 n) = 0%Z.
Proof. unfold dec_value. induction n as [|n IH]; [reflexivity|]. cbn [repeat fold_left]. exact IH. Qed.
Lemma slow_unfinished lim n : (14 <= lim_line lim)%Z -> (1 <= lim_headers lim)%Z -> (14 <= lim_keys lim)%Z -> (0 <= lim_values lim)%Z -> Unfinished lim (slow_text n).
Proof.
  intros H1 H2 H3 H4. exists (slow_head n), (x30 :: CRLF ++ CRLF). split; [|split; [|split; [discriminate|]]].
  - unfold wf_head, slow_head. cbn [h_method h_proto h_path h_decoded h_query h_lines]. repeat split; try discriminate; try (apply not_in_by; reflexivity).
    + apply PD_char; [discriminate|]. apply PD_nil.
    + constructor; [|constructor]. unfold wf_line. cbn [hl_key hl_value hl_crlf]. split; [apply not_in_by; reflexivity|]. split; [apply not_in_by; reflexivity|]. split; [apply not_in_by; reflexivity|].
      change (is_content_length (HLine (B "Content-Length") 1 (repeat x30 (S n)) true)) with true. cbv iota. split; [discriminate|]. split.
      * apply Forall_forall. intros x Hx. apply repeat_spec in Hx. subst x. reflexivity.
      * rewrite dec_zeros. reflexivity.
    + cbn [filter]. change (is_content_length (HLine (B "Content-Length") 1 (repeat x30 (S n)) true)) with true. cbn. lia.
  - unfold S_Head.fits, slow_head. cbn [h_method h_path h_query h_proto h_crlf h_lines].
    assert (C : is_content_length (HLine (B "Content-Length") 1 (repeat x30 (S n)) true) = true) by reflexivity.
    split; [exact H1|]. split; [exact H2|]. split; [exact H3|]. split; [unfold values_size; cbn [fold_right]; rewrite C; exact H4|]. split.
    + constructor; [rewrite C; discriminate|constructor].
    + constructor; [|constructor]. intros [H|H]; discriminate H.
  - unfold slow_text, render_head, slow_head. cbn [h_method h_proto h_path h_query h_crlf h_lines h_end_crlf map concat]. unfold render_line. cbn [hl_key hl_spaces hl_value hl_crlf target h_path h_query].
    replace (repeat x30 (S n)) with (repeat x30 n ++ [x30]) by (symmetry; apply (repeat_cons n x30)).
    change (eol true) with CRLF. rewrite ?app_nil_r. repeat (rewrite <- app_assoc || rewrite <- app_comm_cons). reflexivity.
Qed.
Lemma every_bytes gap : forall bs t, map snd (every gap t bs) = bs.
Proof. induction bs as [|b bs IH]; intros t; [reflexivity|]. cbn. rewrite IH. reflexivity. Qed.
Lemma every_steady gap : (0 <= gap)%Z -> forall bs t, Steady gap t (every gap t bs).
Proof. intros G. induction bs as [|b bs IH]; intros t; [exact I|]. cbn. split; [lia|]. apply IH. Qed.
Lemma every_last gap : forall bs t, last_time t (every gap t bs) = (t + Z.of_nat (List.length bs) * gap)%Z.
Proof. induction bs as [|b bs IH]; intros t; [cbn; lia|]. cbn [every last_time fold_left fst List.length]. unfold last_time in IH. rewrite IH. lia. Qed.
Lemma every_length gap : forall bs t, List.length (every gap t bs) = List.length bs.
Proof. induction bs as [|b bs IH]; intros t; [reflexivity|]. cbn. rewrite IH. reflexivity. Qed.
