(* Lemmas about the smaller packages of M_Tools.v. *)
From Verif Require Import M_Base M_Status M_Method M_Proto M_KeyValue M_Query M_Escape M_HeaderValue M_Request M_Parser M_Client M_Body
  M_Response M_Serializer M_Suit M_Path M_Router M_Tools S_KeyValue S_Head S_Parser S_Query S_Values S_Conn S_Tools
  L_Base L_KeyValue L_Values L_Tables L_Query L_Query2 S_Response L_Response2 L_ConnEnd.

(* ---- strlenmap ---- *)
Section Strlenmap.
Variable T : Type.
Implicit Types (m : smap T) (l : list (bytes * T)).
(* bucket n holds the entries with keys of length n, in the order of insertion *)
Definition sized (n : nat) (e : bytes * T) : bool := (List.length (fst e) =? n)%nat.
Definition smap_ok m l : Prop :=
  (forall n, nth_error m n = if (n <? List.length m)%nat then Some (filter (sized n) l) else None) /\
  (forall k v, In (k, v) l -> (List.length k < List.length m)%nat).
Lemma new_ok : smap_ok smap_new [].
Proof. split; [intros [|n]; reflexivity|intros k v []]. Qed.
Lemma bucket_spec : forall l k, Looked l k (bucket_get l k).
Proof.
  induction l as [|[k1 v1] l IH]; intros k; cbn [bucket_get Looked]; [intros []|].
  destruct (beqb k1 k) eqn:E.
  - apply beqb_eq in E. subst k1. exists [], l. split; [reflexivity|intros []].
  - apply beqb_neq in E. specialize (IH k). destruct (bucket_get l k) as [v|]; cbn [Looked] in *.
    + destruct IH as (a & b & -> & H). exists ((k1, v1) :: a), b. split; [reflexivity|]. cbn. intros [X|X]; [exact (E X)|exact (H X)].
    + cbn. intros [X|X]; [exact (E X)|exact (IH X)].
Qed.
Lemma bucket_sized : forall l k, bucket_get (filter (sized (List.length k)) l) k = bucket_get l k.
Proof.
  induction l as [|[k1 v1] l IH]; intros k; cbn [filter bucket_get]; [reflexivity|].
  unfold sized at 1. cbn [fst]. destruct (List.length k1 =? List.length k)%nat eqn:E; cbn [bucket_get].
  - rewrite IH. reflexivity.
  - rewrite IH. destruct (beqb k1 k) eqn:E1; [|reflexivity]. apply beqb_eq in E1. subst. rewrite Nat.eqb_refl in E. discriminate.
Qed.
Lemma get_ok : forall m l k, smap_ok m l -> exists r, smap_get m k = Some r /\ Looked l k r.
Proof.
  intros m l k [H1 H2]. unfold smap_get. destruct (List.length m <=? List.length k)%nat eqn:E.
  - apply Nat.leb_le in E. exists None. split; [reflexivity|]. cbn. intros Hin. apply in_map_iff in Hin.
    destruct Hin as ([k1 v1] & <- & Hin). apply H2 in Hin. cbn [fst] in *. lia.
  - apply Nat.leb_gt in E. rewrite H1. apply Nat.ltb_lt in E. rewrite E. eexists. split; [reflexivity|].
    rewrite bucket_sized. apply bucket_spec.
Qed.
Lemma resize_ok : forall m l n, smap_ok m l -> (List.length m <= n)%nat -> smap_ok (smap_resize m n) l /\ List.length (smap_resize m n) = n.
Proof.
  intros m l n [H1 H2] Hn. unfold smap_resize. rewrite firstn_all2 by lia.
  assert (L : List.length (m ++ repeat [] (n - List.length m)) = n) by (rewrite app_length, repeat_length; lia).
  split; [|exact L]. split.
  - intros i. rewrite L. destruct (Nat.lt_ge_cases i (List.length m)) as [Hi|Hi].
    + rewrite nth_error_app1 by exact Hi. rewrite H1. apply Nat.ltb_lt in Hi. rewrite Hi. apply Nat.ltb_lt in Hi.
      assert (X : (i <? n)%nat = true) by (apply Nat.ltb_lt; lia). rewrite X. reflexivity.
    + rewrite nth_error_app2 by exact Hi. destruct (i <? n)%nat eqn:E.
      * apply Nat.ltb_lt in E. rewrite nth_error_repeat by lia. f_equal. symmetry.
        assert (G : forall l0, (forall k v, In (k, v) l0 -> (List.length k < List.length m)%nat) -> filter (sized i) l0 = []).
        { induction l0 as [|[k v] l0 IH]; intros G; [reflexivity|]. cbn [filter]. unfold sized at 1. cbn [fst].
          assert (X : (List.length k =? i)%nat = false) by (apply Nat.eqb_neq; specialize (G k v (or_introl eq_refl)); lia).
          rewrite X. apply IH. intros k' v' Hin. exact (G k' v' (or_intror Hin)). }
        apply G. exact H2.
      * apply Nat.ltb_ge in E. apply nth_error_None. rewrite repeat_length. lia.
  - intros k v Hin. rewrite L. apply H2 in Hin. lia.
Qed.
Lemma insert_ok : forall m l k v, smap_ok m l -> exists m', smap_insert m k v = Some m' /\ smap_ok m' (l ++ [(k, v)]).
Proof.
  intros m l k v H. unfold smap_insert.
  set (m1 := if (List.length m <=? List.length k)%nat then smap_resize m (List.length k + 1) else m).
  assert (G : smap_ok m1 l /\ (List.length k < List.length m1)%nat).
  { unfold m1. destruct (List.length m <=? List.length k)%nat eqn:E.
    - apply Nat.leb_le in E. destruct (resize_ok m l (List.length k + 1) H) as [G1 G2]; [lia|]. split; [exact G1|]. rewrite G2. lia.
    - apply Nat.leb_gt in E. split; [exact H|exact E]. }
  destruct G as [[G1 G2] G3]. rewrite G1. assert (X : (List.length k <? List.length m1)%nat = true) by (apply Nat.ltb_lt; exact G3). rewrite X.
  eexists. split; [reflexivity|].
  set (b := filter (sized (List.length k)) l ++ [(k, v)]).
  assert (L : List.length (firstn (List.length k) m1 ++ b :: skipn (S (List.length k)) m1) = List.length m1).
  { rewrite app_length, firstn_length. cbn [List.length]. rewrite skipn_length. lia. }
  split.
  - intros n. rewrite L. destruct (Nat.lt_trichotomy n (List.length k)) as [Hn|[Hn|Hn]].
    + rewrite nth_error_app1 by (rewrite firstn_length; lia).
      assert (Q : nth_error (firstn (List.length k) m1) n = nth_error m1 n).
      { clear -Hn. revert n Hn. generalize (List.length k) as j. induction m1 as [|x m1 IH]; intros [|j] [|n] Hn; try lia; try reflexivity. cbn. apply IH. lia. }
      rewrite Q, G1. destruct (n <? List.length m1)%nat; [|reflexivity]. rewrite filter_app. cbn [filter]. unfold sized at 3. cbn [fst].
      assert (Y : (List.length k =? n)%nat = false) by (apply Nat.eqb_neq; lia). rewrite Y, app_nil_r. reflexivity.
    + subst n. rewrite X. rewrite nth_error_app2 by (rewrite firstn_length; lia). rewrite firstn_length.
      replace (List.length k - Nat.min (List.length k) (List.length m1))%nat with 0%nat by lia. cbn [nth_error]. unfold b.
      rewrite filter_app. cbn [filter]. unfold sized at 3. cbn [fst]. rewrite Nat.eqb_refl. reflexivity.
    + rewrite nth_error_app2 by (rewrite firstn_length; lia). rewrite firstn_length.
      replace (n - Nat.min (List.length k) (List.length m1))%nat with (S (n - S (List.length k))) by lia. cbn [nth_error].
      assert (Q : forall j i, nth_error (skipn j m1) i = nth_error m1 (j + i)).
      { clear. induction m1 as [|x m1 IH]; intros [|j] i; try reflexivity. destruct i; reflexivity. cbn. apply IH. }
      rewrite Q. replace (S (List.length k) + (n - S (List.length k)))%nat with n by lia. rewrite G1.
      destruct (n <? List.length m1)%nat; [|reflexivity]. rewrite filter_app. cbn [filter]. unfold sized at 3. cbn [fst].
      assert (Y : (List.length k =? n)%nat = false) by (apply Nat.eqb_neq; lia). rewrite Y, app_nil_r. reflexivity.
  - intros k1 v1 Hin. rewrite L. apply in_app_iff in Hin. destruct Hin as [Hin|[Hin|[]]]; [exact (G2 _ _ Hin)|]. injection Hin as <- _. exact G3.
Qed.
Theorem smap_history : forall ops m l, smap_ok m l -> exists rs, smap_run m ops = Some rs /\ SmapAnswers l ops rs.
Proof.
  induction ops as [|o ops IH]; intros m l H; [exists []; split; [reflexivity|constructor]|]. destruct o as [k v|k]; cbn [smap_run].
  - destruct (insert_ok m l k v H) as (m' & -> & H'). destruct (IH m' _ H') as (rs & -> & HA). exists rs. split; [reflexivity|constructor; exact HA].
  - destruct (get_ok m l k H) as (r & -> & Hr). destruct (IH m l H) as (rs & -> & HA). exists (r :: rs). split; [reflexivity|constructor; assumption].
Qed.
End Strlenmap.

(* ---- the request log ---- *)
Lemma write_log_spec : forall W A (lines : W -> list bytes) (rest : W -> A) deflt loggers r w,
  Appends lines rest deflt -> Forall (Appends lines rest) loggers ->
  lines (write_log deflt loggers r w) = lines w ++ repeat (request_line_log r) (Nat.max 1 (List.length loggers)) /\
  rest (write_log deflt loggers r w) = rest w.
Proof.
  intros W A lines rest deflt loggers r w Hd Hl. unfold write_log.
  assert (G : forall ls w, Forall (Appends lines rest) ls ->
    lines (fold_left (fun v l => l (request_line_log r) v) ls w) = lines w ++ repeat (request_line_log r) (List.length ls) /\
    rest (fold_left (fun v l => l (request_line_log r) v) ls w) = rest w).
  { induction ls as [|x ls IH]; intros w0 H; cbn [fold_left repeat List.length].
    - rewrite app_nil_r. split; reflexivity.
    - inversion H as [|? ? Hx Hls]; subst. destruct (IH (x (request_line_log r) w0) Hls) as [I1 I2].
      destruct (Hx (request_line_log r) w0) as [X1 X2]. rewrite I1, I2, X1, X2, <- app_assoc. split; reflexivity. }
  destruct loggers as [|x ls].
  - exact (G [deflt] w (Forall_cons _ Hd (Forall_nil _))).
  - destruct (G (x :: ls) w Hl) as [G1 G2]. rewrite G1, G2. cbn [List.length]. rewrite Nat.max_r by lia. split; reflexivity.
Qed.

(* whatever is true of every call of the router is true of the connection *)
Section World.
Variable CS W : Type.
Variable cparse : CS -> bytes -> bool -> CS * (bytes * bytes * option cerr).
Variable max : Z.
Variable cfg : hcfg.
Variable R : W -> W -> Prop.
Hypothesis R_refl : forall w, R w w.
Hypothesis R_trans : forall a b c, R a b -> R b c -> R a c.
Variable on_request : W -> request -> hprog W.
Variable on_error : W -> request -> http_error -> hprog W.
Hypothesis Rq : forall w r r0 (b : body CS) c resp w' r' b' c', run_handler cparse max (on_request w r) r0 b c = HDone resp w' r' b' c' -> R w w'.
Hypothesis Re : forall w r e r0 (b : body CS) c resp w' r' b' c', run_handler cparse max (on_error w r e) r0 b c = HDone resp w' r' b' c' -> R w w'.
Lemma close_world : forall e st, R (k_world st) (k_world (snd (close_with cparse max on_error e st))).
Proof.
  intros e st. unfold close_with. destruct (run_handler _ _ _ _ _ _) as [resp w r' b c| |] eqn:E; cbn [snd k_world]; [exact (Re _ _ _ _ _ _ _ _ _ _ _ E)|apply R_refl|apply R_refl].
Qed.
Lemma head_world : forall st extra, R (k_world st) (k_world (left_with (on_head cparse max on_request on_error st extra))).
Proof.
  intros st extra. unfold on_head.
  match goal with |- context [if wants_switch ?r then ?a else ?b] => destruct (if wants_switch r then a else b) as [[s pre] version] end.
  destruct (run_handler _ _ (on_request _ _) _ _ _) as [resp w r' b' c'|r' b' c'|] eqn:E; [|apply R_refl|apply R_refl].
  apply Rq in E. destruct (r_hijacked r'); [exact E|].
  destruct (write_response version r' (not_nil resp) s c') as [[[res s'] c''] f'].
  assert (C : forall e (x : CS) st1, k_world st1 = w -> R (k_world st) (k_world (left_with (inl (close_with cparse max on_error e st1))))).
  { intros e x st1 Hw. eapply R_trans; [exact E|]. rewrite <- Hw. pose proof (close_world e st1) as G.
    destruct (close_with cparse max on_error e st1). exact G. }
  destruct res; try exact E.
  - destruct (request_clear_full cparse max r' b' c'') as [[[res2 r2] b2] c2]. destruct res2 as [[er|]|]; try exact E.
    apply C; [exact (bd_cs b2)|reflexivity].
  - apply C; [exact (bd_cs b')|reflexivity].
  - apply C; [exact (bd_cs b')|reflexivity].
Qed.
Lemma serve_world : forall fuel st, R (k_world st) (k_world (snd (serve cparse max cfg on_request on_error fuel st))).
Proof.
  induction fuel as [|n IH]; intros st; cbn [serve]; [apply R_refl|].
  destruct (client_read (k_client st)) as [[data er] c1]. destruct er as [er|].
  - exact (close_world EndRead (set_k_client c1 st)).
  - destruct (parse cfg (k_parser (set_k_client c1 st)) data) as [p|p extra|p er| |] eqn:Ep; try apply R_refl.
    + exact (IH (set_k_parser p (set_k_client c1 st))).
    + pose proof (head_world (set_k_parser p (set_k_client c1 st)) extra) as G.
      destruct (on_head cparse max on_request on_error (set_k_parser p (set_k_client c1 st)) extra) as [[e1 st1]|st1]; [exact G|].
      eapply R_trans; [exact G|apply IH].
    + unfold on_bad_head. destruct (run_handler _ _ _ _ _ _) as [resp w r' b' c'|r' b' c'|] eqn:E; try apply R_refl.
      apply Re in E. destruct (write_response _ _ _ _ _) as [[[res s'] c''] f']. destruct res; exact E.
Qed.
End World.

Lemma request_log_plain : forall r, plain_line (request_line_log r).
Proof.
  intros r x H. unfold request_line_log in H. rewrite !in_app_iff in H. destruct H as [H|[H|H]].
  - left. destruct (r_method r); vm_compute in H; repeat (destruct H as [ <- |H]; [split; vm_compute; discriminate|]); destruct H.
  - left. destruct H as [ <- |[]]. split; vm_compute; discriminate.
  - exact (escaped_bytes _ _ H).
Qed.
Section Log.
Variable CS W : Type.
Variable cparse : CS -> bytes -> bool -> CS * (bytes * bytes * option cerr).
Variable max : Z.
Variable cfg : hcfg.
Variable lines : W -> list bytes.
Variable seen : W -> list call.
Variable on_request : W -> request -> hprog W.
Variable on_error : W -> request -> http_error -> hprog W.
Hypothesis N : Notices (CS := CS) cparse max seen on_request on_error.
Hypothesis K : LeavesLog (CS := CS) cparse max lines on_request on_error.
Variable before : list mutator.
Variable deflt : bytes -> W -> W.
Variable loggers : list (bytes -> W -> W).
Hypothesis Hd : Appends lines seen deflt.
Hypothesis Hl : Forall (Appends lines seen) loggers.
Let m := Nat.max 1 (List.length loggers).
Lemma log_notices : Notices (CS := CS) cparse max seen (logging_request before deflt loggers on_request) (logging_error before deflt loggers on_error).
Proof.
  split.
  - intros w r r0 b c resp w' r' b' c' H. apply (proj1 N) in H. rewrite H.
    rewrite (proj2 (write_log_spec W _ lines seen deflt loggers (run_mutators before r) w Hd Hl)). reflexivity.
  - intros w r e r0 b c resp w' r' b' c' H. apply (proj2 N) in H. rewrite H.
    rewrite (proj2 (write_log_spec W _ lines seen deflt loggers (run_mutators before r) w Hd Hl)). reflexivity.
Qed.
Theorem log_connection : forall fuel st e st',
  serve cparse max cfg (logging_request before deflt loggers on_request) (logging_error before deflt loggers on_error) fuel st = (e, st') ->
  Closes (seen (k_world st)) e (seen (k_world st')) /\
  exists calls logged, seen (k_world st') = seen (k_world st) ++ calls /\ lines (k_world st') = lines (k_world st) ++ logged /\
    List.length logged = (m * List.length calls)%nat /\ Forall plain_line logged.
Proof.
  intros fuel st e st' H. split; [exact (end_seen CS W cparse max cfg seen _ _ log_notices fuel st e st' H)|].
  pose (R := fun w w' => exists calls logged, seen w' = seen w ++ calls /\ lines w' = lines w ++ logged /\
    List.length logged = (m * List.length calls)%nat /\ Forall plain_line logged).
  change (R (k_world st) (k_world st')). replace st' with (snd (serve cparse max cfg (logging_request before deflt loggers on_request) (logging_error before deflt loggers on_error) fuel st)) by (rewrite H; reflexivity).
  assert (One : forall r w w' x, lines w' = lines (write_log deflt loggers r w) -> seen w' = seen w ++ [x] -> R w w').
  { intros r w w' x H1 H2. exists [x], (repeat (request_line_log r) m). split; [exact H2|].
    rewrite (proj1 (write_log_spec W _ lines seen deflt loggers r w Hd Hl)) in H1. split; [exact H1|]. split.
    - rewrite repeat_length. cbn [List.length]. lia.
    - apply Forall_forall. intros y Hy. apply repeat_spec in Hy. subst y. apply request_log_plain. }
  apply serve_world.
  - intros w. exists [], []. rewrite !app_nil_r. repeat split; [cbn; lia|constructor].
  - intros a b c (c1 & l1 & A1 & A2 & A3 & A4) (c2 & l2 & B1 & B2 & B3 & B4). exists (c1 ++ c2), (l1 ++ l2).
    rewrite B1, B2, A1, A2, !app_assoc, !app_length, A3, B3. repeat split; [lia|]. apply Forall_app. split; assumption.
  - intros w r r0 b c resp w' r' b' c' E. pose proof (proj1 log_notices _ _ _ _ _ _ _ _ _ _ E) as E2. apply (proj1 K) in E. exact (One _ _ _ _ E E2).
  - intros w r er r0 b c resp w' r' b' c' E. pose proof (proj2 log_notices _ _ _ _ _ _ _ _ _ _ _ E) as E2. apply (proj2 K) in E. exact (One _ _ _ _ E E2).
Qed.
End Log.

(* ---- generated requests ---- *)
Lemma generate_text : forall path decoded q h,
  generate (path ++ match q with None => [] | Some t => x3f :: t end) h = render_head (gen_head path decoded q (kv_pairs h)).
Proof.
  intros path decoded q h. unfold generate, render_head, gen_head, S_Head.target, headers_block.
  cbn [h_method h_path h_query h_proto h_crlf h_lines h_end_crlf method_token proto_token eol].
  assert (G : forall l : list pair_t, concat (map (fun p => fst p ++ B ": " ++ snd p ++ CRLF) l) = concat (map render_line (map gen_line l))).
  { induction l as [|[k v] l IH]; [reflexivity|]. cbn [map concat]. rewrite IH. unfold render_line, gen_line.
    cbn [hl_key hl_spaces hl_value hl_crlf repeat eol fst snd]. reflexivity. }
  rewrite G. change (B "GET /") with (B "GET" ++ [SP] ++ [SLASH]). rewrite <- !app_assoc. reflexivity.
Qed.
Lemma gen_wf : forall path decoded q l, ~ In x3f path -> ~ In LF path -> PctDecodes path decoded ->
  match q with None => True | Some t => ~ In LF t end -> Forall good_header l -> wf_head (gen_head path decoded q l).
Proof.
  intros path decoded q l H1 H2 H3 H4 H5. unfold wf_head, gen_head. cbn [h_method h_path h_decoded h_query h_proto h_crlf h_lines h_end_crlf].
  split; [discriminate|]. split; [discriminate|]. split; [discriminate|].
  split; [intros [X|X]; [discriminate X|exact (H1 X)]|]. split; [intros [X|X]; [discriminate X|exact (H2 X)]|].
  split; [constructor; [discriminate|exact H3]|]. split; [exact H4|].
  assert (G : forall p, good_header p -> is_content_length (gen_line p) = false).
  { intros p Hp. unfold is_content_length, gen_line. cbn [hl_key]. destruct (equal_fold (fst p) (B "content-length")) eqn:E; [|reflexivity].
    exfalso. destruct Hp as (_ & _ & _ & _ & _ & Hp). apply Hp. apply beqb_eq in E. exact E. }
  split.
  - apply Forall_forall. intros x Hx. apply in_map_iff in Hx. destruct Hx as (p & <- & Hp). rewrite Forall_forall in H5. specialize (H5 p Hp).
    pose proof (G p H5) as E. destruct H5 as (A1 & A2 & A3 & A4 & A5 & A6). unfold wf_line. rewrite E. cbn [gen_line hl_key hl_value hl_crlf].
    repeat split; try assumption; discriminate.
  - assert (Z : filter is_content_length (map gen_line l) = []).
    { clear -G H5. induction l as [|p l IH]; [reflexivity|]. inversion H5 as [|? ? Hp Hr]; subst. cbn [map filter]. rewrite (G p Hp). exact (IH Hr). }
    rewrite Z. cbn. lia.
Qed.
Lemma gen_fields : forall l, Forall good_header l -> field_pairs (map gen_line l) = l.
Proof.
  induction l as [|[k v] l IH]; intros H; [reflexivity|]. inversion H as [|? ? Hp Hr]; subst. unfold field_pairs in *. cbn [map filter].
  assert (E : is_content_length (gen_line (k, v)) = false).
  { unfold is_content_length. cbn [gen_line hl_key fst]. destruct (equal_fold k (B "content-length")) eqn:E; [|reflexivity].
    exfalso. destruct Hp as (_ & _ & _ & _ & _ & Hp). apply Hp. apply beqb_eq in E. exact E. }
  rewrite E. cbn [negb map]. rewrite (IH Hr). reflexivity.
Qed.

(* ---- strings.Cut ---- *)
Lemma has_prefix_app : forall p s, has_prefix (p ++ s) p = true.
Proof. induction p as [|x p IH]; intros s; [destruct s; reflexivity|]. cbn. rewrite beq_refl. apply IH. Qed.
Lemma cut_sub_byte : forall c a b, ~ In c a -> cut_sub (a ++ c :: b) [c] = (a, b, true).
Proof.
  intros c a b H. unfold cut_sub. assert (E : index_sub (a ++ c :: b) [c] = Some (List.length a)).
  { induction a as [|x a IH]; rewrite index_sub_eq.
    - cbn. rewrite beq_refl. destruct b; reflexivity.
    - cbn. destruct (Byte.eqb x c) eqn:E; [apply beq_eq in E; exfalso; apply H; left; exact E|]. cbn [andb].
      rewrite IH by (intros X; apply H; right; exact X). reflexivity. }
  rewrite E. rewrite firstn_app, Nat.sub_diag, firstn_all, app_nil_r. f_equal. f_equal. cbn [List.length].
  change (c :: b) with ([c] ++ b). rewrite app_assoc. replace (List.length a + 1)%nat with (List.length (a ++ [c])) by (rewrite app_length; reflexivity).
  rewrite skipn_app, Nat.sub_diag, skipn_all. reflexivity.
Qed.
Lemma cut_sub_two : forall x y a b, x <> y -> ~ Occurs [x; y] a -> cut_sub (a ++ x :: y :: b) [x; y] = (a, b, true).
Proof.
  intros x y a b Hxy H. unfold cut_sub. assert (E : index_sub (a ++ x :: y :: b) [x; y] = Some (List.length a)).
  { induction a as [|z a IH]; rewrite index_sub_eq.
    - cbn. rewrite !beq_refl. destruct b; reflexivity.
    - assert (Ha : ~ Occurs [x; y] a).
      { intros (a1 & b1 & ->). apply H. exists (z :: a1), b1. reflexivity. }
      assert (P : has_prefix ((z :: a) ++ x :: y :: b) [x; y] = false).
      { cbn. destruct (Byte.eqb z x) eqn:E1; [|reflexivity]. apply beq_eq in E1. subst z. cbn [andb].
        destruct a as [|z2 a]; cbn [app has_prefix].
        - destruct (Byte.eqb x y) eqn:E2; [apply beq_eq in E2; contradiction|reflexivity].
        - destruct (Byte.eqb z2 y) eqn:E2; [|reflexivity]. apply beq_eq in E2. subst z2. exfalso. apply H. exists [], a. reflexivity. }
      rewrite P. cbn [app]. rewrite (IH Ha). reflexivity. }
  rewrite E. rewrite firstn_app, Nat.sub_diag, firstn_all, app_nil_r. f_equal. f_equal. cbn [List.length].
  change (x :: y :: b) with ([x; y] ++ b). rewrite app_assoc. replace (List.length a + 2)%nat with (List.length (a ++ [x; y])) by (rewrite app_length; reflexivity).
  rewrite skipn_app, Nat.sub_diag, skipn_all. reflexivity.
Qed.

(* ---- Dump and Parse ---- *)
Lemma digits_value_acc : forall s a, Forall (fun c => is_digit c = true) s ->
  digits_value s a = Some (fold_left (fun a d => (a * 10 + (bZ d - 48))%Z) s a).
Proof.
  induction s as [|c s IH]; intros a H; [reflexivity|]. inversion H as [|? ? Hc Hs]; subst. cbn [digits_value fold_left]. rewrite Hc. apply IH. exact Hs.
Qed.
Lemma itoa_digits : forall n, (0 <= n)%Z -> itoa n <> [] /\ Forall (fun c => is_digit c = true) (itoa n).
Proof.
  intros n H. unfold itoa. destruct (n <? 0)%Z eqn:E; [apply Z.ltb_lt in E; lia|]. unfold itoa_N. split.
  - apply digits_aux_nonnil. right. lia.
  - apply digits_aux_digit. constructor.
Qed.
Lemma dec_number_fold : forall l a n, Forall (fun c => is_digit c = true) l ->
  fold_left (fun a c => match a, dec_digit c with Some n, Some v => Some (10 * n + v)%N | _, _ => None end) l (Some a) = Some n ->
  fold_left (fun a d => (a * 10 + (bZ d - 48))%Z) l (Z.of_N a) = Z.of_N n.
Proof.
  induction l as [|c l IH]; intros a n H E; cbn [fold_left] in *; [injection E as ->; reflexivity|].
  inversion H as [|? ? Hc Hl]; subst. unfold dec_digit in E at 2. unfold is_digit in Hc. rewrite Hc in E.
  apply IH in E; [|exact Hl]. rewrite <- E. f_equal. apply andb_prop in Hc. destruct Hc as [H1 H2]. apply N.leb_le in H1. unfold bZ, bN in *. lia.
Qed.
Lemma atoi_itoa : forall n, (0 <= n < two63)%Z -> atoi (itoa n) = Some n.
Proof.
  intros n Hn. destruct (itoa_digits n) as [Ne D]; [lia|].
  assert (V : digits_value (itoa n) 0 = Some n).
  { rewrite digits_value_acc by exact D. f_equal. pose proof (itoa_N_dec (Z.to_N n)) as E.
    unfold itoa in *. destruct (n <? 0)%Z eqn:E0; [apply Z.ltb_lt in E0; lia|]. unfold dec_number in E.
    destruct (itoa_N (Z.to_N n)) as [|c l] eqn:El; [congruence|]. apply (dec_number_fold _ 0%N) in E; [|exact D]. cbn [Z.of_N] in E. rewrite E. lia. }
  assert (X : ((- two63 <=? n) && (n <? two63))%Z = true) by (apply andb_true_intro; split; [apply Z.leb_le; unfold two63 in *; lia|apply Z.ltb_lt; lia]).
  unfold atoi. destruct (itoa n) as [|c l] eqn:El; [congruence|].
  inversion D as [|? ? Hc _]; subst. destruct c; try (vm_compute in Hc; discriminate Hc); rewrite V, X; reflexivity.
Qed.
Lemma last_snoc : forall l (c : byte), last_byte (l ++ [c]) = Some c /\ drop_last (l ++ [c]) = l.
Proof.
  induction l as [|x l IH]; intros c; [split; reflexivity|]. destruct (IH c) as [I1 I2]. cbn [app].
  destruct (l ++ [c]) as [|y m] eqn:E; [destruct l; discriminate|]. split; [exact I1|]. change (drop_last (x :: y :: m)) with (x :: drop_last (y :: m)). rewrite I2. reflexivity.
Qed.
Lemma params_dump : forall l, l <> [] -> concat (map dump_param l) = params_text l ++ [x26].
Proof.
  induction l as [|[k v] l IH]; intros H; [congruence|]. destruct l as [|e l].
  - cbn. unfold dump_param. cbn [fst snd]. rewrite app_nil_r, <- !app_assoc. reflexivity.
  - change (concat (map dump_param ((k, v) :: e :: l))) with (dump_param (k, v) ++ concat (map dump_param (e :: l))).
    rewrite IH by discriminate. change (params_text ((k, v) :: e :: l)) with (k ++ B "=" ++ v ++ B "&" ++ params_text (e :: l)).
    unfold dump_param. cbn [fst snd]. rewrite <- !app_assoc. reflexivity.
Qed.
Lemma drop_ampersand_params : forall a l, drop_ampersand (a ++ B "?" ++ concat (map dump_param l)) = a ++ B "?" ++ params_text l.
Proof.
  intros a l. unfold drop_ampersand. destruct l as [|e l].
  - cbn [map concat params_text]. rewrite app_nil_r. change (B "?") with [x3f]. rewrite (proj1 (last_snoc a x3f)). reflexivity.
  - rewrite params_dump by discriminate. rewrite !app_assoc. rewrite (proj1 (last_snoc _ x26)), (proj2 (last_snoc _ x26)). reflexivity.
Qed.
Lemma params_no_space : forall l, (forall k v, In (k, v) l -> ~ In SP k /\ ~ In SP v) -> ~ In SP (params_text l).
Proof.
  induction l as [|[k v] l IH]; intros H; [intros []|]. destruct (H k v (or_introl eq_refl)) as [Hk Hv].
  assert (Hl : ~ In SP (params_text l)) by (apply IH; intros k1 v1 Hin; exact (H k1 v1 (or_intror Hin))).
  destruct l as [|e l].
  - cbn [params_text]. rewrite !in_app_iff. intros [X|[X|X]]; [exact (Hk X)|destruct X as [X|[]]; discriminate X|exact (Hv X)].
  - change (params_text ((k, v) :: e :: l)) with (k ++ B "=" ++ v ++ B "&" ++ params_text (e :: l)). rewrite !in_app_iff.
    intros [X|[X|[X|[X|X]]]]; [exact (Hk X)|destruct X as [X|[]]; discriminate X|exact (Hv X)|destruct X as [X|[]]; discriminate X|exact (Hl X)].
Qed.
(* no line break across the colon *)
Lemma header_no_crlf : forall k v, ~ Occurs CRLF k -> ~ Occurs CRLF v -> ~ Occurs CRLF (k ++ B ": " ++ v).
Proof.
  assert (G : forall x s, ~ Occurs CRLF s -> (x = CR -> hd SP s <> LF) -> ~ Occurs CRLF (x :: s)).
  { intros x s H1 H2 (a & b & E). destruct a as [|y a].
    - injection E as -> ->. apply H2; reflexivity.
    - injection E as _ ->. apply H1. exists a, b. reflexivity. }
  induction k as [|x k IH]; intros v Hk Hv.
  - cbn [app]. apply G; [|discriminate]. apply G; [exact Hv|discriminate].
  - cbn [app]. assert (Hk' : ~ Occurs CRLF k) by (intros (a & b & ->); apply Hk; exists (x :: a), b; reflexivity).
    apply G; [exact (IH v Hk' Hv)|]. intros -> E. destruct k as [|y k]; cbn in E; [discriminate|]. subst y. apply Hk. exists [], k. reflexivity.
Qed.
Lemma parse_lines_dumped : forall l text h fuel, (List.length l < fuel)%nat ->
  (forall k v, In (k, v) l -> ~ Occurs (B ": ") k /\ ~ Occurs CRLF k /\ ~ Occurs CRLF v) ->
  parse_lines fuel (concat (map dump_header l) ++ CRLF ++ text) h = Some (inr (fold_left (fun s p => kv_add s (fst p) (snd p)) l h, text)).
Proof.
  induction l as [|[k v] l IH]; intros text h fuel Hf H; (destruct fuel as [|fuel]; [cbn in Hf; lia|]); cbn [parse_lines map concat app].
  - assert (E : cut_sub (CRLF ++ text) CRLF = ([], text, true)).
    { apply (cut_sub_two CR LF []); [discriminate|]. intros (a & b & E). destruct a; discriminate. }
    rewrite E. reflexivity.
  - destruct (H k v (or_introl eq_refl)) as (H1 & H2 & H3). unfold dump_header at 1. cbn [fst snd].
    replace (((k ++ B ": " ++ v ++ CRLF) ++ concat (map dump_header l)) ++ CRLF ++ text)
      with ((k ++ B ": " ++ v) ++ CR :: LF :: (concat (map dump_header l) ++ CRLF ++ text)) by (rewrite <- !app_assoc; reflexivity).
    change CRLF with [CR; LF] at 2. rewrite cut_sub_two; [|discriminate|exact (header_no_crlf k v H2 H3)].
    destruct (k ++ B ": " ++ v) as [|y line] eqn:E; [destruct k; discriminate|]. rewrite <- E.
    change (B ": ") with [x3a; SP]. change ([x3a; SP] ++ v) with (x3a :: SP :: v). rewrite cut_sub_two; [|discriminate|exact H1].
    cbn [fold_left fst snd]. apply IH; [cbn in Hf; lia|]. intros k1 v1 Hin. exact (H k1 v1 (or_intror Hin)).
Qed.
Lemma add_all_pairs : forall l h, kv_pairs (fold_left (fun s p => kv_add s (fst p) (snd p)) l h) = kv_pairs h ++ l.
Proof.
  induction l as [|[k v] l IH]; intros h; cbn [fold_left]; [rewrite app_nil_r; reflexivity|]. rewrite IH. cbn. rewrite <- app_assoc. reflexivity.
Qed.
Lemma values_absent : forall l k, (forall k1 v1, In (k1, v1) l -> ~ same_key k1 k) -> all_values l k = [].
Proof.
  induction l as [|[k1 v1] l IH]; intros k H; [reflexivity|]. unfold all_values in *. cbn [filter fst]. rewrite same_keyb_fold.
  destruct (equal_fold k1 k) eqn:E.
  - exfalso. apply (H k1 v1 (or_introl eq_refl)). apply beqb_eq in E. exact E.
  - apply IH. intros k2 v2 Hin. exact (H k2 v2 (or_intror Hin)).
Qed.
Lemma all_values_app : forall a b k, all_values (a ++ b) k = all_values a k ++ all_values b k.
Proof. intros a b k. unfold all_values. rewrite filter_app, map_app. reflexivity. Qed.
Definition dump_text (r : request) (q : option (list entry)) (text : bytes) : bytes :=
  method_string (r_method r) ++ B " " ++ target_text (r_path r) q ++ B " " ++ version_name (r_proto r) ++ CRLF ++
  concat (map dump_header (kv_pairs (r_headers r) ++ [(B "Content-Length", itoa (r_content_length r))])) ++ CRLF ++ text.
Section DumpParse.
Variable CS : Type.
Variable cparse : CS -> bytes -> bool -> CS * (bytes * bytes * option cerr).
Variable max : Z.
Lemma dump_ok : forall r q (b : body CS) c text b' c', Dumpable r q -> body_bytes cparse max b c = (BROk text, b', c') ->
  exists r', dump cparse max r b c = (DOk (dump_text r q text) None, r', b', c') /\ (q = None -> r' = r) /\
    exists q', r' = set_query q' r.
Proof.
  intros r q b c text b' c' D Hb. unfold dump.
  assert (P : exists p0 p, proto_string (r_proto r) = p0 :: p /\ drop_last (p0 :: p) = version_name (r_proto r)).
  { pose proof (du_proto _ _ D). destruct (r_proto r); [congruence|..]; eexists _, _; split; reflexivity. }
  destruct P as (p0 & p & P1 & P2).
  assert (F : forall line, line = method_string (r_method r) ++ B " " ++ target_text (r_path r) q ->
    (line ++ B " " ++ drop_last (p0 :: p) ++ CRLF ++ concat (map dump_header (kv_pairs (r_headers r))) ++
      dump_header (B "Content-Length", itoa (r_content_length r)) ++ CRLF) ++ text = dump_text r q text).
  { intros line ->. rewrite P2. unfold dump_text. rewrite map_app, concat_app. cbn [map concat]. rewrite app_nil_r, <- !app_assoc. reflexivity. }
  pose proof (du_query _ _ D) as Q. inversion Q as [q0 Hq0|q0 d l Hne Hfr Hpd Hqt]; subst.
  - rewrite Hq0, P1, Hb. eexists. split; [rewrite F; [reflexivity|]; unfold target_text; rewrite app_nil_r; reflexivity|].
    split; [reflexivity|]. exists (r_query r). destruct r; reflexivity.
  - destruct (q_raw (r_query r)) as [|x xs] eqn:E0; [congruence|]. rewrite <- E0 in Hpd.
    pose proof (query_text _ _ _ Hpd Hqt) as Hp. destruct (do_parse_fresh _ l None Hfr Hp) as (q' & R1 & R2 & R3).
    unfold query_unwrap. rewrite R1, P1, Hb. eexists. split.
    + rewrite F; [reflexivity|]. rewrite R3. rewrite drop_ampersand_params. unfold target_text. rewrite <- !app_assoc. reflexivity.
    + split; [discriminate|]. exists q'. reflexivity.
Qed.
Lemma target_no_space : forall r q, Dumpable r q -> ~ In SP (target_text (r_path r) q).
Proof.
  intros r q D. unfold target_text. rewrite in_app_iff. intros [X|X]; [exact (du_path _ _ D X)|]. destruct q as [l|]; [|exact X].
  rewrite in_app_iff in X. destruct X as [X|X]; [destruct X as [X|[]]; discriminate X|].
  revert X. apply params_no_space. intros k v Hin. exact (du_params _ _ D l k v eq_refl Hin).
Qed.
Lemma parse_ok : forall r q text, Dumpable r q ->
  exists t, tool_parse (dump_text r q text) = (if (r_content_length r =? len text)%Z then Some (inr t) else Some (inl TWrongLength)) /\
    (r_content_length r = len text -> ReadBack r q text t).
Proof.
  intros r q text D. eexists. split; cycle 1. 2: unfold tool_parse, dump_text.
  2:{
  set (hs := kv_pairs (r_headers r) ++ [(B "Content-Length", itoa (r_content_length r))]).
  assert (M : ~ In SP (method_string (r_method r))).
  { destruct (r_method r); vm_compute; intros X; repeat (destruct X as [X|X]; [discriminate X|]); exact X. }
  assert (V : ~ Occurs CRLF (version_name (r_proto r))).
  { intros (a & b & E). assert (X : In CR (version_name (r_proto r))) by (rewrite E, in_app_iff; right; left; reflexivity).
    revert X. destruct (r_proto r); vm_compute; intros X; repeat (destruct X as [X|X]; [discriminate X|]); exact X. }
  assert (NN : forall a (x : byte) b, beqb (a ++ x :: b) [] = false) by (intros [|y a] x b; reflexivity).
  set (rest := concat (map dump_header hs) ++ CRLF ++ text).
  change (B " ") with [SP]. change ([SP] ++ version_name (r_proto r) ++ CRLF ++ rest) with (SP :: version_name (r_proto r) ++ CR :: LF :: rest).
  change ([SP] ++ target_text (r_path r) q ++ SP :: version_name (r_proto r) ++ CR :: LF :: rest)
    with (SP :: target_text (r_path r) q ++ SP :: version_name (r_proto r) ++ CR :: LF :: rest).
  rewrite cut_sub_byte by exact M. rewrite NN. cbn [negb orb].
  rewrite cut_sub_byte by exact (target_no_space r q D). rewrite NN. cbn [negb orb].
  change CRLF with [CR; LF] at 1. rewrite cut_sub_two by (try discriminate; exact V). cbn [negb orb].
  assert (R0 : beqb rest [] = false).
  { unfold rest. change (CRLF ++ text) with (CR :: LF :: text). apply NN. }
  rewrite R0.
  assert (HS : forall k v, In (k, v) hs -> ~ Occurs (B ": ") k /\ ~ Occurs CRLF k /\ ~ Occurs CRLF v).
  { intros k v Hin. unfold hs in Hin. rewrite in_app_iff in Hin. destruct Hin as [Hin|[Hin|[]]].
    - destruct (du_headers _ _ D k v Hin) as (A1 & A2 & A3 & _). repeat split; assumption.
    - injection Hin as <- <-. destruct (itoa_digits (r_content_length r)) as [_ Dg]; [pose proof (du_length _ _ D); lia|].
      split; [|split].
      + intros (a & b & E). assert (X : In x3a (B "Content-Length")) by (rewrite E, in_app_iff; right; left; reflexivity).
        vm_compute in X. repeat (destruct X as [X|X]; [discriminate X|]). exact X.
      + intros (a & b & E). assert (X : In CR (B "Content-Length")) by (rewrite E, in_app_iff; right; left; reflexivity).
        vm_compute in X. repeat (destruct X as [X|X]; [discriminate X|]). exact X.
      + intros (a & b & E). rewrite Forall_forall in Dg. assert (X : is_digit CR = true) by (apply Dg; rewrite E, in_app_iff; right; left; reflexivity).
        discriminate X. }
  assert (LN : (List.length hs < S (List.length rest))%nat).
  { unfold rest. clear. rewrite !app_length. assert (G : forall l, (List.length l <= List.length (concat (map dump_header l)))%nat).
    { induction l as [|[k v] l IH]; [cbn; lia|]. cbn [map concat]. rewrite app_length. unfold dump_header at 1. rewrite !app_length. cbn. lia. }
    specialize (G hs). lia. }
  unfold rest at 2. rewrite (parse_lines_dumped hs text kv_new _ LN HS).
  set (h := fold_left (fun s p => kv_add s (fst p) (snd p)) hs kv_new).
  assert (HP : kv_pairs h = hs) by (unfold h; rewrite add_all_pairs; reflexivity).
  unfold kv_values_of. rewrite pairs_values_spec, HP. cbn [app].
  assert (VS : all_values hs (B "content-length") = [itoa (r_content_length r)]).
  { unfold hs. rewrite all_values_app. rewrite values_absent; [reflexivity|]. intros k1 v1 Hin. exact (proj2 (proj2 (proj2 (du_headers _ _ D k1 v1 Hin)))). }
  rewrite VS. cbn [get_content_length]. rewrite atoi_itoa by exact (du_length _ _ D).
  reflexivity. }
  intros E. unfold ReadBack. cbn [t_method t_path t_proto t_headers t_body kv_pairs].
  split; [apply method_round; exact (du_method _ _ D)|]. split; [reflexivity|]. split; [reflexivity|]. split; [|reflexivity].
  rewrite E. reflexivity.
Qed.
Theorem dump_parse : forall r q (b : body CS) c text b' c', Dumpable r q -> body_bytes cparse max b c = (BROk text, b', c') ->
  exists dumped r', dump cparse max r b c = (DOk dumped None, r', b', c') /\ (exists q', r' = set_query q' r) /\
    (r_content_length r = len text -> exists t, tool_parse dumped = Some (inr t) /\ ReadBack r q text t) /\
    (r_content_length r <> len text -> tool_parse dumped = Some (inl TWrongLength)).
Proof.
  intros r q b c text b' c' D Hb. destruct (dump_ok r q b c text b' c' D Hb) as (r' & E & _ & Hq). exists (dump_text r q text), r'.
  split; [exact E|]. split; [exact Hq|]. destruct (parse_ok r q text D) as (t & G & Ht). split; intros X.
  - exists t. split; [|exact (Ht X)]. apply Z.eqb_eq in X. rewrite X in G. exact G.
  - apply Z.eqb_neq in X. rewrite X in G. exact G.
Qed.
End DumpParse.

(* ---- Compare ---- *)
Lemma cmp_slice_eq : forall a b, cmp_slice a b = true <-> a = b.
Proof.
  induction a as [|x a IH]; intros [|y b]; cbn; split; intros H; try reflexivity; try discriminate.
  - apply andb_prop in H. destruct H as [H1 H2]. apply beqb_eq in H1. apply IH in H2. subst. reflexivity.
  - injection H as -> ->. rewrite beqb_refl. apply IH. reflexivity.
Qed.
Lemma complaint_0 : forall b, complaint b = 0%nat <-> b = true.
Proof. intros [|]; cbn; split; intros H; congruence. Qed.
Lemma sum_0 : forall (f : bytes -> bool) l n, fold_left (fun n k => n + complaint (f k))%nat l n = 0%nat <-> n = 0%nat /\ forall k, In k l -> f k = true.
Proof.
  intros f. induction l as [|k l IH]; intros n; cbn [fold_left].
  - split; [intros ->; split; [reflexivity|intros k []]|intros [H _]; exact H].
  - rewrite IH. split.
    + intros [H1 H2]. assert (H3 : n = 0%nat /\ complaint (f k) = 0%nat) by lia. destruct H3 as [H3 H4]. split; [exact H3|].
      intros k' [ <- |Hin]; [apply complaint_0; exact H4|exact (H2 k' Hin)].
    + intros [-> H2]. split; [|intros k' Hin; exact (H2 k' (or_intror Hin))]. apply complaint_0. apply H2. left. reflexivity.
Qed.
Lemma values_or_nil_spec : forall s k, values_or_nil s k = all_values (kv_pairs s) k.
Proof.
  intros s k. unfold values_or_nil, kv_values_of. rewrite pairs_values_spec. cbn [app snd]. destruct (all_values (kv_pairs s) k); reflexivity.
Qed.
Lemma distinct_in : forall l before k, In k (new_keys before l) -> exists v, In (k, v) l.
Proof.
  induction l as [|[k1 v1] l IH]; intros before k H; cbn [new_keys] in H; [destruct H|].
  apply in_app_iff in H. destruct H as [H|H].
  - destruct (existsb (fun e => same_keyb (fst e) k1) before); [destruct H|]. destruct H as [ <- |[]]. exists v1. left. reflexivity.
  - destruct (IH _ _ H) as [v Hv]. exists v. right. exact Hv.
Qed.
Lemma values_same_key : forall l a b, same_key a b -> all_values l a = all_values l b.
Proof.
  intros l a b H. unfold all_values. f_equal. apply filter_ext. intros e. rewrite !same_keyb_fold. unfold equal_fold. rewrite H. reflexivity.
Qed.
Lemma values_present : forall l k k1 v, In (k1, v) l -> same_key k1 k -> all_values l k <> [].
Proof.
  intros l k k1 v H1 H2 E. assert (X : In v (all_values l k)); [|rewrite E in X; exact X].
  unfold all_values. apply in_map_iff. exists (k1, v). split; [reflexivity|]. apply filter_In. split; [exact H1|]. rewrite same_keyb_fold.
  apply beqb_eq. exact H2.
Qed.
Lemma values_some : forall l k, all_values l k <> [] -> exists k1 v, In (k1, v) l /\ same_key k1 k.
Proof.
  intros l k H. unfold all_values in H. destruct (filter (fun e => same_keyb (fst e) k) l) as [|[k1 v] r] eqn:E; [cbn in H; congruence|].
  exists k1, v. assert (X : In (k1, v) (filter (fun e => same_keyb (fst e) k) l)) by (rewrite E; left; reflexivity).
  apply filter_In in X. destruct X as [X1 X2]. split; [exact X1|]. rewrite same_keyb_fold in X2. apply beqb_eq in X2. exact X2.
Qed.
Lemma compare_headers : forall got want : list entry,
  (forall k, In k (distinct_keys want) -> all_values want k = all_values got k) ->
  List.length (distinct_keys want) = List.length (distinct_keys got) ->
  forall k, all_values got k = all_values want k.
Proof.
  intros got want H L k.
  destruct (distinct_keys_ok want) as [Dw Cw]. destruct (distinct_keys_ok got) as [Dg Cg].
  assert (Iw : incl (map (map lower) (distinct_keys want)) (map (map lower) (distinct_keys got))).
  { intros x Hx. apply in_map_iff in Hx. destruct Hx as (k1 & <- & Hk1). pose proof (H k1 Hk1) as E.
    destruct (distinct_in _ _ _ Hk1) as [v Hv]. pose proof (values_present want k1 k1 v Hv eq_refl) as P. rewrite E in P.
    destruct (values_some _ _ P) as (k2 & v2 & Hin & Hs). destruct (Cg k2 (ex_intro _ v2 Hin)) as (k3 & Hk3 & Hs3).
    apply in_map_iff. exists k3. split; [|exact Hk3]. unfold same_key in *. congruence. }
  assert (Ig : incl (map (map lower) (distinct_keys got)) (map (map lower) (distinct_keys want))).
  { apply NoDup_length_incl; [exact Dw| |exact Iw]. rewrite !map_length. apply Nat.eq_le_incl. symmetry. exact L. }
  destruct (list_eq_dec (list_eq_dec L_Base.byte_eq_dec) (all_values want k) []) as [Ew|Ew].
  - rewrite Ew. destruct (list_eq_dec (list_eq_dec L_Base.byte_eq_dec) (all_values got k) []) as [Eg|Eg]; [exact Eg|]. exfalso.
    destruct (values_some _ _ Eg) as (k1 & v1 & Hin & Hs). destruct (Cg k1 (ex_intro _ v1 Hin)) as (k2 & Hk2 & Hs2).
    specialize (Ig (map lower k2) (in_map _ _ _ Hk2)). apply in_map_iff in Ig. destruct Ig as (k3 & E3 & Hk3).
    destruct (distinct_in _ _ _ Hk3) as [v3 Hv3]. apply (values_present want k k3 v3 Hv3); [|exact Ew]. unfold same_key in *. congruence.
  - destruct (values_some _ _ Ew) as (k1 & v1 & Hin & Hs). destruct (Cw k1 (ex_intro _ v1 Hin)) as (k2 & Hk2 & Hs2).
    assert (S : same_key k k2) by (unfold same_key in *; congruence).
    rewrite (values_same_key got k k2 S), (values_same_key want k k2 S). symmetry. exact (H k2 Hk2).
Qed.
Lemma distinct_count : forall a b : list entry, (forall k, all_values a k = all_values b k) -> List.length (distinct_keys a) = List.length (distinct_keys b).
Proof.
  assert (G : forall a b : list entry, (forall k, all_values a k = all_values b k) -> (List.length (distinct_keys a) <= List.length (distinct_keys b))%nat).
  { intros a b H. destruct (distinct_keys_ok a) as [Da Ca]. destruct (distinct_keys_ok b) as [Db Cb].
    pose proof (map_length (map lower) (distinct_keys a)) as La. pose proof (map_length (map lower) (distinct_keys b)) as Lb.
    refine (eq_ind _ (fun x => (x <= _)%nat) (eq_ind _ (fun y => (_ <= y)%nat) _ _ Lb) _ La). apply NoDup_incl_length; [exact Da|].
    intros x Hx. apply in_map_iff in Hx. destruct Hx as (k & <- & Hk). destruct (distinct_in _ _ _ Hk) as [v Hv].
    pose proof (values_present a k k v Hv eq_refl) as P. rewrite H in P. destruct (values_some _ _ P) as (k1 & v1 & Hin & Hs).
    destruct (Cb k1 (ex_intro _ v1 Hin)) as (k2 & Hk2 & Hs2). apply in_map_iff. exists k2. split; [unfold same_key in *; congruence|exact Hk2]. }
  intros a b H. apply Nat.le_antisymm; apply G; intros k; [exact (H k)|symmetry; exact (H k)].
Qed.
Theorem compare_spec : forall got want, tool_compare got want = 0%nat <-> SameRequest got want.
Proof.
  intros got want. unfold tool_compare, SameRequest, kv_keys. cbn [snd]. rewrite !pairs_keys_spec.
  set (kw := distinct_keys (kv_pairs (t_headers want))). set (kg := distinct_keys (kv_pairs (t_headers got))).
  split.
  - intros H.
    match type of H with (?a + ?b + ?c + ?d + ?e + ?f)%nat = _ =>
      assert (HH : (a = 0 /\ b = 0 /\ c = 0 /\ d = 0 /\ e = 0 /\ f = 0)%nat) by lia end.
    destruct HH as (H1 & H2 & H3 & H4 & H5 & H6). apply complaint_0 in H1, H2, H3, H5, H6. apply sum_0 in H4. destruct H4 as [_ H4].
    apply beqb_eq in H2, H3, H6. apply Nat.eqb_eq in H5.
    split; [destruct (t_method got), (t_method want); try discriminate H1; reflexivity|]. repeat (split; [assumption|]).
    apply compare_headers; [|exact H5]. intros k Hk. specialize (H4 k Hk). apply cmp_slice_eq in H4. rewrite !values_or_nil_spec in H4. exact H4.
  - intros (H1 & H2 & H3 & H4 & H5). rewrite H1, H2, H3, H4, !beqb_refl.
    assert (M : method_eqb (t_method want) (t_method want) = true) by (destruct (t_method want); reflexivity). rewrite M.
    assert (L : List.length kw = List.length kg) by (apply distinct_count; intros k; symmetry; apply H5). rewrite L, Nat.eqb_refl.
    assert (S : fold_left (fun n k => n + complaint (cmp_slice (values_or_nil (t_headers want) k) (values_or_nil (t_headers got) k)))%nat kw 0%nat = 0%nat).
    { apply sum_0. split; [reflexivity|]. intros k _. apply cmp_slice_eq. rewrite !values_or_nil_spec. symmetry. apply H5. }
    rewrite S. reflexivity.
Qed.
