(* Lemmas about rendering and reading responses. *)
From Verif Require Import M_Base M_Status M_Method M_Proto M_Client M_Request M_Response M_Serializer
  S_KeyValue S_Response L_Base L_KeyValue L_Tables.

(* ---- rendering is appending ---- *)
Lemma put_put : forall a b s, put b (put a s) = put (a ++ b) s.
Proof. intros. unfold put. cbn. rewrite app_assoc. reflexivity. Qed.
Lemma put_nil : forall s, put [] s = s.
Proof. intros [b m z d]. unfold put. cbn. rewrite app_nil_r. reflexivity. Qed.
Lemma put_buff : forall a s, s_buff (put a s) = s_buff s ++ a.
Proof. reflexivity. Qed.
Lemma put_defaults : forall a s, s_defaults (put a s) = s_defaults s.
Proof. reflexivity. Qed.
Lemma put_filebuf : forall a s, s_filebuf (put a s) = s_filebuf s.
Proof. reflexivity. Qed.
Lemma put_filesize : forall a s, s_filesize (put a s) = s_filesize s.
Proof. reflexivity. Qed.

Lemma render_line_text : forall f s,
  render_response_line f s = put (itoa_N (f_code f) ++ [SP] ++ sent_reason f ++ CRLF) s.
Proof.
  intros f s. unfold render_response_line, sent_reason.
  destruct (f_status f) as [|x st].
  - destruct (N.eq_dec (f_code f) 101) as [E|E].
    + rewrite E. reflexivity.
    + replace (f_code f =? 101)%N with false by (symmetry; apply N.eqb_neq; exact E). cbn [andb].
      destruct (status_line_ok (f_code f) E) as [H|H]; rewrite H.
      * rewrite !put_put. rewrite <- ?app_assoc. reflexivity.
      * destruct (itoa_N (f_code f) ++ SP :: status_text (f_code f) ++ CRLF) eqn:Ex.
        { apply app_eq_nil in Ex. destruct Ex as [_ Ex]. discriminate Ex. }
        rewrite <- Ex. reflexivity.
  - rewrite andb_false_r. rewrite !put_put. rewrite <- ?app_assoc. reflexivity.
Qed.

Definition set_defaults d (s : serializer) := Ser (s_buff s) (s_filebuf s) (s_filesize s) d.
Definition excl (ns : list bytes) (d : list default_header) := fold_left (fun d k => exclude k d) ns d.

Lemma render_own : forall hs s,
  fold_left (fun s h => exclude_in (fst h) (render_header h s)) hs s =
  set_defaults (excl (map fst hs) (s_defaults s)) (put (concat (map field_text hs)) s).
Proof.
  induction hs as [|h hs IH]; intros s; cbn [fold_left map concat].
  - unfold excl. cbn. rewrite put_nil. destruct s; reflexivity.
  - rewrite IH. unfold render_header. rewrite !put_put. unfold exclude_in, set_defaults, excl, put.
    cbn [s_buff s_filebuf s_filesize s_defaults map fold_left]. f_equal. unfold field_text at 2. rewrite <- ?app_assoc. reflexivity.
Qed.
Definition active (d : list default_header) : list default_header := filter (fun h => negb (dh_excluded h)) d.
Lemma render_defaults_aux : forall d s,
  fold_left (fun s h => if dh_excluded h then s else put (dh_full h) s) d s =
  put (concat (map dh_full (active d))) s.
Proof.
  induction d as [|h d IH]; intros s; cbn [fold_left].
  - rewrite put_nil. reflexivity.
  - rewrite IH. unfold active. cbn [filter]. destruct (dh_excluded h); cbn [negb map concat]; [reflexivity|].
    rewrite put_put. reflexivity.
Qed.
Definition te_fields (f : fields) : list entry := match f_te f with [] => [] | t => [(B "Transfer-Encoding", t)] end.
Definition headers_text (f : fields) (d : list default_header) : bytes :=
  concat (map field_text (f_headers f)) ++ concat (map dh_full (active d)) ++
  field_text (B "Content-Type", f_ctype f) ++ concat (map field_text (te_fields f)).
Lemma render_headers_text : forall f s,
  render_headers f s =
  set_defaults (excl (names f) (s_defaults s)) (put (headers_text f (excl (names f) (s_defaults s))) s).
Proof.
  intros f s. unfold render_headers. rewrite render_own. unfold render_defaults. cbn [s_defaults set_defaults].
  rewrite render_defaults_aux. unfold render_known, headers_text, te_fields.
  destruct (f_te f) as [|x t]; rewrite !put_put; unfold set_defaults, put; cbn [s_buff s_filebuf s_filesize s_defaults];
    f_equal; unfold field_text; cbn [fst snd map concat]; rewrite ?app_nil_r, <- ?app_assoc; reflexivity.
Qed.

Lemma render_cookie_text : forall c s,
  render_cookie c s = put (field_text (B "Set-Cookie", set_cookie_text (B "MaxAge") c)) s.
Proof.
  intros c s.
  set (body := B "Set-Cookie: " ++ set_cookie_text (B "MaxAge") c).
  assert (K : forall t, Ser (firstn (List.length (s_buff (put (t ++ B "; ") s)) - 2) (s_buff (put (t ++ B "; ") s)))
                (s_filebuf s) (s_filesize s) (s_defaults s) = put t s).
  { intros t. unfold put. cbn [s_buff]. f_equal. rewrite app_assoc. rewrite app_length. cbn [List.length B list_byte_of_string].
    replace (_ + 2 - 2)%nat with (List.length (s_buff s ++ t)) by lia.
    rewrite firstn_app, Nat.sub_diag, firstn_all. cbn. apply app_nil_r. }
  assert (J : forall l x, join (B "; ") (x :: l) ++ B "; " = x ++ B "; " ++ concat (map (fun a => a ++ B "; ") l)).
  { induction l as [|y l IH]; intros x; [cbn [join map concat]; rewrite app_nil_r; reflexivity|].
    change (join (B "; ") (x :: y :: l)) with (x ++ B "; " ++ join (B "; ") (y :: l)).
    rewrite <- ?app_assoc. rewrite IH. cbn [map concat]. rewrite <- ?app_assoc. reflexivity. }
  assert (E : forall g : serializer -> serializer, 
    (let s := put (B "Set-Cookie: ") s in
     let s := put (B "; ") (put (ck_value c) (put (B "=") (put (ck_name c) s))) in
     let s := match ck_path c with [] => s | p => put (B "; ") (put p (put (B "Path=") s)) end in
     let s := match ck_domain c with [] => s | d => put (B "; ") (put d (put (B "Domain=") s)) end in
     let s := match ck_expires c with None => s | Some e => put (B "; ") (put e (put (B "Expires=") s)) end in
     let s := if (ck_maxage c =? 0)%Z then s
              else let m := if (0 <? ck_maxage c)%Z then itoa (ck_maxage c) else B "0" in
                   put (B "; ") (put m (put (B "MaxAge=") s)) in
     let s := match ck_samesite c with [] => s | v => put (B "; ") (put v (put (B "SameSite=") s)) end in
     let s := if ck_secure c then put (B "Secure; ") s else s in
     let s := if ck_httponly c then put (B "HttpOnly; ") s else s in g s) = g (put (body ++ B "; ") s)).
  { intros g. cbv zeta. f_equal. subst body. unfold set_cookie_text. rewrite <- app_assoc, J.
    unfold attributes. rewrite !map_app, !concat_app.
    assert (M : (if (0 <? ck_maxage c)%Z then itoa (ck_maxage c) else B "0") = itoa (Z.max 0 (ck_maxage c))).
    { destruct (0 <? ck_maxage c)%Z eqn:E0; [apply Z.ltb_lt in E0|apply Z.ltb_ge in E0].
      - rewrite Z.max_r by lia. reflexivity.
      - rewrite Z.max_l by lia. reflexivity. }
    rewrite M.
    destruct (ck_path c) as [|? ?], (ck_domain c) as [|? ?], (ck_expires c) as [?|], (ck_maxage c =? 0)%Z,
      (ck_samesite c) as [|? ?], (ck_secure c), (ck_httponly c);
    rewrite ?put_put; cbn [opt nonempty negb map concat attribute_text fst snd]; rewrite ?app_nil_r, <- ?app_assoc;
    reflexivity. }
  etransitivity; [exact (E (fun s => put CRLF (Ser (firstn (List.length (s_buff s) - 2) (s_buff s)) (s_filebuf s) (s_filesize s) (s_defaults s))))|].
  change (s_filebuf (put (body ++ B "; ") s)) with (s_filebuf s).
  change (s_filesize (put (body ++ B "; ") s)) with (s_filesize s).
  change (s_defaults (put (body ++ B "; ") s)) with (s_defaults s).
  rewrite K, put_put. subst body. unfold field_text. cbn [fst snd]. rewrite <- ?app_assoc. reflexivity.
Qed.
Definition cookie_fields (f : fields) : list entry :=
  map (fun c => (B "Set-Cookie", set_cookie_text (B "MaxAge") c)) (f_cookies f).
Lemma render_cookies_text : forall cs s,
  fold_left (fun s k => render_cookie k s) cs s =
  put (concat (map field_text (map (fun c => (B "Set-Cookie", set_cookie_text (B "MaxAge") c)) cs))) s.
Proof.
  induction cs as [|c cs IH]; intros s; cbn [fold_left map concat]; [rewrite put_nil; reflexivity|].
  rewrite IH, render_cookie_text, put_put. reflexivity.
Qed.

(* ---- the default headers over the life of a connection ---- *)
Definition mark (past : list bytes) (d : entry) : default_header := DefH (named past (fst d)) (fst d) (field_text d).
Lemma exclude_mark : forall defs past k, distinct_names defs ->
  exclude k (map (mark past) defs) = map (mark (past ++ [k])) defs.
Proof.
  induction defs as [|[n v] defs IH]; intros past k Hd; [reflexivity|].
  destruct Hd as [Hn Hd]. cbn [map exclude mark fst dh_key dh_full dh_excluded].
  assert (N1 : forall m, named (past ++ [k]) m = named past m || same_keyb k m).
  { intros m. unfold named. rewrite existsb_app. cbn. rewrite orb_false_r. reflexivity. }
  destruct (equal_fold n k) eqn:E.
  - unfold mark at 2. cbn [fst]. rewrite N1, same_keyb_fold, equal_fold_sym, E, orb_true_r. f_equal.
    apply map_ext_in. intros [m w] Hin. unfold mark. cbn [fst]. rewrite N1.
    replace (same_keyb k m) with false; [rewrite orb_false_r; reflexivity|].
    symmetry. rewrite same_keyb_fold. destruct (equal_fold k m) eqn:E2; [|reflexivity].
    assert (named (map fst defs) n = true).
    { apply existsb_exists. exists m. split; [apply in_map_iff; exists (m, w); tauto|].
      rewrite same_keyb_fold. rewrite equal_fold_sym. apply equal_fold_trans with k; assumption. }
    congruence.
  - rewrite IH by exact Hd. unfold mark at 1 3. cbn [fst]. rewrite N1, same_keyb_fold, equal_fold_sym, E, orb_false_r. reflexivity.
Qed.
Lemma excl_mark : forall defs ns past, distinct_names defs ->
  excl ns (map (mark past) defs) = map (mark (past ++ ns)) defs.
Proof.
  intros defs ns. induction ns as [|k ns IH]; intros past Hd; unfold excl; cbn [fold_left].
  - rewrite app_nil_r. reflexivity.
  - rewrite exclude_mark by exact Hd. fold (excl ns (map (mark (past ++ [k])) defs)). rewrite IH by exact Hd.
    rewrite <- app_assoc. reflexivity.
Qed.
Lemma active_mark : forall defs past,
  map dh_full (active (map (mark past) defs)) = map field_text (remaining past defs).
Proof.
  induction defs as [|d defs IH]; intros past; [reflexivity|].
  unfold active, remaining in *. cbn [map filter mark dh_excluded]. destruct (named past (fst d)); cbn [negb map dh_full];
    rewrite IH; reflexivity.
Qed.
Lemma process_mark : forall defs, process_defaults defs = map (mark []) defs.
Proof.
  intros defs. unfold process_defaults. apply map_ext. intros [k v]. unfold mark, render_default, field_text. cbn [fst snd named existsb].
  rewrite firstn_app, Nat.sub_diag, firstn_all. cbn. rewrite app_nil_r. reflexivity.
Qed.

(* the file buffer keeps its size *)
Lemma overwrite_length : forall mem off d, (off <= List.length mem)%nat -> List.length (overwrite mem off d) = List.length mem.
Proof.
  intros mem off d H. unfold overwrite. rewrite !app_length, !firstn_length, skipn_length. lia.
Qed.
Lemma overwrite_length_le : forall mem off d, List.length (overwrite mem off d) = List.length mem.
Proof.
  intros mem off d. destruct (Nat.le_gt_cases off (List.length mem)) as [H|H]; [apply overwrite_length; exact H|].
  unfold overwrite. replace (List.length mem - off)%nat with 0%nat by lia. cbn [firstn List.length].
  rewrite firstn_all2 by lia. rewrite skipn_all2 by lia. cbn. rewrite app_nil_r. reflexivity.
Qed.
Lemma write_plain_mem : forall ev mem c res mem' c' ev',
  write_plain ev mem c = (res, mem', c', ev') -> List.length mem' = List.length mem.
Proof.
  induction ev as [|[d e] ev IH]; intros mem c res mem' c' ev' H; cbn [write_plain] in H; [congruence|].
  destruct e as [[|]|]; try (injection H as <- <- <- <-; apply overwrite_length_le).
  destruct (_ <? _)%nat; [injection H as <- <- <- <-; apply overwrite_length_le|].
  destruct (client_write _ _) as [[|] c2]; [|injection H as <- <- <- <-; apply overwrite_length_le].
  apply IH in H. rewrite H. apply overwrite_length_le.
Qed.
Lemma write_chunked_mem : forall ev mem c res mem' c' ev',
  write_chunked ev mem c = (res, mem', c', ev') -> List.length mem' = List.length mem.
Proof.
  induction ev as [|[d e] ev IH]; intros mem c res mem' c' ev' H; cbn [write_chunked] in H; [congruence|].
  destruct (0 <? List.length d)%nat.
  - destruct (_ <? _)%nat; [injection H as <- <- <- <-; apply overwrite_length_le|].
    destruct (_ <? _)%nat; [injection H as <- <- <- <-; apply overwrite_length_le|].
    destruct (client_write _ _) as [[|] c2].
    + destruct e as [[|]|].
      * destruct (client_write c2 _) as [ok c3]. injection H as <- <- <- <-. rewrite !overwrite_length_le. reflexivity.
      * injection H as <- <- <- <-. rewrite !overwrite_length_le. reflexivity.
      * apply IH in H. rewrite H, !overwrite_length_le. reflexivity.
    + injection H as <- <- <- <-. rewrite !overwrite_length_le. reflexivity.
  - destruct e as [[|]|].
    + destruct (client_write c _) as [ok c3]. injection H as <- <- <- <-. apply overwrite_length_le.
    + injection H as <- <- <- <-. apply overwrite_length_le.
    + apply IH in H. rewrite H. apply overwrite_length_le.
Qed.

(* what holds of a serializer at any time *)
Record SerInv (fbs : Z) (defs : list entry) (past : list bytes) (s : serializer) : Prop := {
  si_defaults : distinct_names defs -> s_defaults s = map (mark past) defs;
  si_size : s_filesize s = Z.to_nat (Z.max 16 fbs);
  si_mem : forall m, s_filebuf s = Some m -> List.length m = s_filesize s
}.
Lemma inv_new : forall fbs defs, SerInv fbs defs [] (new_serializer fbs defs).
Proof.
  intros. split.
  - intros _. apply process_mark.
  - unfold new_serializer. cbn [s_filesize]. f_equal. destruct (fbs <? 16)%Z eqn:E; [apply Z.ltb_lt in E|apply Z.ltb_ge in E]; lia.
  - intros m H. discriminate H.
Qed.
Lemma inv_put : forall fbs defs past a s, SerInv fbs defs past s -> SerInv fbs defs past (put a s).
Proof. intros fbs defs past a s [H1 H2 H3]. split; assumption. Qed.
Lemma inv_cl : forall fbs defs past n s, SerInv fbs defs past s -> SerInv fbs defs past (render_content_length n s).
Proof. intros fbs defs past n s [H1 H2 H3]. split; assumption. Qed.
Lemma inv_headers : forall fbs defs past f s, SerInv fbs defs past s -> SerInv fbs defs (past ++ names f) (render_headers f s).
Proof.
  intros fbs defs past f s [H1 H2 H3]. rewrite render_headers_text. split; cbn [s_defaults s_filesize s_filebuf set_defaults put]; try assumption.
  intros Hd. rewrite (H1 Hd). apply excl_mark. exact Hd.
Qed.
Lemma inv_clear : forall fbs defs past s, SerInv fbs defs past s -> SerInv fbs defs past (ser_clear s).
Proof. intros fbs defs past s [H1 H2 H3]. split; assumption. Qed.
Lemma inv_line : forall fbs defs past f s, SerInv fbs defs past s -> SerInv fbs defs past (render_response_line f s).
Proof. intros. rewrite render_line_text. apply inv_put. assumption. Qed.
Lemma inv_filebuf : forall fbs defs past m s, SerInv fbs defs past s -> List.length m = s_filesize s -> SerInv fbs defs past (set_filebuf m s).
Proof. intros fbs defs past m s [H1 H2 H3] Hm. split; cbn; try assumption. intros m' E. injection E as <-. exact Hm. Qed.
Lemma names_te : forall t f, names (set_te t f) = names f.
Proof. reflexivity. Qed.
Lemma inv_send : forall fbs defs past r f a s c res s' c' f', SerInv fbs defs past s ->
  send_attachment r f a s c = (res, s', c', f') -> SerInv fbs defs (past ++ names f) s'.
Proof.
  intros fbs defs past r f a s c res s' c' f' I H. unfold send_attachment in H. cbv zeta in H.
  set (f1 := if (0 <? at_size a)%Z then f else set_te (B "chunked") f) in *.
  assert (En : names f1 = names f) by (subst f1; destruct (0 <? at_size a)%Z; reflexivity).
  set (s1 := put CRLF (if (0 <? at_size a)%Z then render_content_length (at_size a) (render_headers f1 s) else render_headers f1 s)) in *.
  assert (I1 : SerInv fbs defs (past ++ names f) s1).
  { subst s1. rewrite <- En. apply inv_put. destruct (0 <? at_size a)%Z; [apply inv_cl|]; apply inv_headers; exact I. }
  destruct (client_write c (s_buff s1)) as [ok c1]. destruct ok; cbn [negb] in H.
  2:{ injection H as <- <- <- <-. exact I1. }
  destruct (method_eqb (r_method r) HEAD); [injection H as <- <- <- <-; exact I1|].
  set (mem := match s_filebuf s1 with Some m => m | None => repeat x00 (s_filesize s1) end) in *.
  assert (Lm : List.length mem = s_filesize s1).
  { subst mem. destruct (s_filebuf s1) as [m|] eqn:E; [apply (si_mem _ _ _ _ I1); exact E|apply repeat_length]. }
  destruct (if (0 <? at_size a)%Z then write_plain (at_events a) mem c1 else write_chunked (at_events a) mem c1) as [[[w m2] c2] ev2] eqn:W.
  assert (L2 : List.length m2 = List.length mem).
  { destruct (0 <? at_size a)%Z; [eapply write_plain_mem|eapply write_chunked_mem]; exact W. }
  destruct w; injection H as <- <- <- <-; apply inv_filebuf; try exact I1; congruence.
Qed.
Lemma inv_cookies : forall fbs defs past cs s, SerInv fbs defs past s ->
  SerInv fbs defs past (fold_left (fun s k => render_cookie k s) cs s).
Proof. intros. rewrite render_cookies_text. apply inv_put. assumption. Qed.
Lemma inv_write : forall fbs defs past p r f s c res s' c' f', SerInv fbs defs past s ->
  write_response p r f s c = (res, s', c', f') -> SerInv fbs defs (past ++ names f) s'.
Proof.
  intros fbs defs past p r f s c res s' c' f' I H. unfold write_response in H. cbv zeta in H.
  destruct (f_att f) as [a|].
  - destruct (send_attachment _ _ _ _ _) as [[[w s1] c1] f1] eqn:E. injection H as <- <- <- <-.
    apply inv_clear. eapply inv_send; [|exact E]. apply inv_line. apply inv_put. exact I.
  - destruct (client_write c _) as [ok c1]. injection H as <- <- <- <-. apply inv_clear.
    set (s1 := put CRLF _). assert (I1 : SerInv fbs defs (past ++ names f) s1).
    { subst s1. apply inv_put. apply inv_cl. apply inv_cookies. apply inv_headers. apply inv_line. apply inv_put. exact I. }
    destruct (method_eqb (r_method r) HEAD); [exact I1|apply inv_put; exact I1].
Qed.
Lemma served_inv : forall fbs defs past s, Served fbs defs past s -> SerInv fbs defs past s.
Proof.
  intros fbs defs past s H. induction H as [|past s p f H IH|past s p r f c res s' c' f' H IH E].
  - apply inv_new.
  - unfold pre_write. apply inv_put. apply inv_headers. apply inv_line. apply inv_put. exact IH.
  - eapply inv_write; eassumption.
Qed.
Lemma write_clears : forall p r f s c res s' c' f', write_response p r f s c = (res, s', c', f') -> s_buff s' = [].
Proof.
  intros p r f s c res s' c' f' H. unfold write_response in H. cbv zeta in H. destruct (f_att f) as [a|].
  - destruct (send_attachment _ _ _ _ _) as [[[w s1] c1] f1]. injection H as <- <- <- <-. reflexivity.
  - destruct (client_write c _) as [ok c1]. injection H as <- <- <- <-. reflexivity.
Qed.
