(* File serving. *)
From Coq Require Import Permutation.
From Verif Require Import M_Base M_Status M_Method M_Proto M_KeyValue M_Query M_Request M_Response M_Suit M_Path M_Radix M_Router M_Static S_Routes S_Router S_Static
  L_Base L_Path L_Router5 L_Router7.

(* ---- the name of the file does not depend on earlier requests ---- *)
Definition static_file (pp : replacer) (path : bytes) : option bytes :=
  let lp := List.length (rp_prefix pp) in
  let lr := List.length (rp_with pp) in
  if Nat.leb lp (List.length path) then Some (rp_with pp ++ skipn lp path)
  else if Nat.leb (lp - List.length path) lr then Some (firstn (lr - (lp - List.length path)) (rp_with pp))
  else None.
Definition pp_ok (pp : replacer) : Prop := rp_max pp = Nat.max (List.length (rp_prefix pp)) (List.length (rp_with pp)).
Lemma new_path_ok : forall prefix root pp, new_path prefix root = Some pp ->
  pp_ok pp /\ with_trailing_sep prefix = Some (rp_prefix pp) /\ with_trailing_sep root = Some (rp_with pp).
Proof.
  intros prefix root pp H. unfold new_path in H. destruct (with_trailing_sep prefix) as [p|]; [|discriminate]. destruct (with_trailing_sep root) as [w|]; [|discriminate].
  injection H as <-. repeat split.
Qed.
Lemma set_shape : forall pp path b, exists x y, pb_buff (pp_set pp path b) = x ++ path ++ y /\
  List.length x = (rp_max pp - List.length (rp_prefix pp))%nat /\ pb_len (pp_set pp path b) = (rp_max pp - List.length (rp_prefix pp) + List.length path)%nat.
Proof.
  intros pp path b. unfold pp_set. set (off := (rp_max pp - List.length (rp_prefix pp))%nat). cbn [pb_buff pb_len].
  set (buff := if Nat.ltb _ _ then _ else _).
  assert (HL : (off + List.length path <= List.length buff)%nat).
  { unfold buff. destruct (Nat.ltb_spec (List.length (pb_buff b)) (off + List.length path)); [rewrite repeat_length; lia|lia]. }
  clearbody buff. unfold copy_at. rewrite Nat.min_l by lia. rewrite firstn_all.
  exists (firstn off buff), (skipn (off + List.length path) buff). split; [reflexivity|]. split; [|reflexivity]. rewrite firstn_length. lia.
Qed.
Lemma copy_at_length : forall buff from s, (from <= List.length buff)%nat -> List.length (copy_at buff from s) = List.length buff.
Proof. intros buff from s H. unfold copy_at. rewrite !app_length, !firstn_length, skipn_length. lia. Qed.
Lemma skip_exact : forall (a b : bytes) n, List.length a = n -> skipn n (a ++ b) = b.
Proof. intros a b n <-. rewrite skipn_app, skipn_all, Nat.sub_diag. reflexivity. Qed.
Lemma take_exact : forall (a b : bytes) n, List.length a = n -> firstn n (a ++ b) = a.
Proof. intros a b n <-. rewrite firstn_app, firstn_all, Nat.sub_diag. cbn [firstn]. apply app_nil_r. Qed.
Lemma static_closed : forall pp b path, pp_ok pp ->
  match pp_relative pp (pp_set pp path b) with
  | None => static_file pp path = None
  | Some (b', from, to) => static_file pp path = Some (slice (pb_buff b') from to) /\ pb_len b' = pb_len (pp_set pp path b)
  end.
Proof.
  intros pp b path Hok. destruct (set_shape pp path b) as (x & y & Hb & Hx & Hl). unfold pp_ok in Hok.
  destruct (pp_set pp path b) as [buff bl]. cbn [pb_buff pb_len] in *. subst buff bl.
  unfold pp_relative, static_file. cbn [pb_buff pb_len].
  set (lp := List.length (rp_prefix pp)) in *. set (lr := List.length (rp_with pp)) in *. set (mx := rp_max pp) in *.
  assert (Hlen : List.length (x ++ path ++ y) = (mx - lp + (List.length path + List.length y))%nat) by (rewrite !app_length; lia).
  destruct (Nat.ltb_spec (List.length (x ++ path ++ y)) (mx - lr)) as [H1|H1].
  - destruct (Nat.leb_spec lp (List.length path)); [lia|]. destruct (Nat.leb_spec (lp - List.length path) lr); [lia|reflexivity].
  - destruct (Nat.ltb_spec (mx - lp + List.length path) (mx - lr)) as [H2|H2].
    + destruct (Nat.leb_spec lp (List.length path)); [lia|]. destruct (Nat.leb_spec (lp - List.length path) lr); [lia|reflexivity].
    + split; [|reflexivity]. cbn [pb_buff]. unfold copy_at, slice. fold lr.
      rewrite skip_exact by (rewrite firstn_length; lia).
      destruct (Nat.leb_spec lp (List.length path)) as [H3|H3].
      * f_equal. rewrite Nat.min_l by lia. assert (Ew : firstn lr (rp_with pp) = rp_with pp) by apply firstn_all. rewrite Ew.
        replace (mx - lr + lr)%nat with mx by lia.
        assert (E : skipn mx (x ++ path ++ y) = skipn lp path ++ y).
        { assert (Ep : x ++ path ++ y = (x ++ firstn lp path) ++ skipn lp path ++ y).
          { rewrite <- app_assoc. f_equal. rewrite (app_assoc (firstn lp path)), firstn_skipn. reflexivity. }
          rewrite Ep. apply skip_exact. rewrite app_length, firstn_length. lia. }
        rewrite E, app_assoc. symmetry. apply take_exact. rewrite app_length, skipn_length. fold lr. lia.
      * destruct (Nat.leb_spec (lp - List.length path) lr) as [H4|H4]; [|lia]. f_equal.
        rewrite firstn_app, firstn_firstn. rewrite firstn_length. fold lr.
        replace (mx - lp + List.length path - (mx - lr) - Nat.min (Nat.min lr (List.length (x ++ path ++ y) - (mx - lr))) lr)%nat with 0%nat by lia.
        cbn [firstn]. rewrite app_nil_r. f_equal. lia.
Qed.
Theorem history_irrelevant : forall pp b path, pp_ok pp ->
  snd (static_step pp b path) = match static_file pp path with Some f => if is_safe f then SOpen f else SNotFound | None => SPanic end.
Proof.
  intros pp b path Hok. unfold static_step. pose proof (static_closed pp b path Hok) as H. destruct (pp_relative pp (pp_set pp path b)) as [[[b' from] to]|].
  - destruct H as [-> _]. reflexivity.
  - rewrite H. reflexivity.
Qed.

(* ---- the check ---- *)
Lemma is_safe_dots : forall p, is_safe p = true <-> NoDots p.
Proof.
  induction p as [|c p IH]; cbn [is_safe].
  - split; [|reflexivity]. intros _ (a & b & H). destruct a; discriminate.
  - assert (E : NoDots (c :: p) <-> NoDots p /\ ~ (c = DOT /\ exists p', p = DOT :: p')).
    { split.
      - intros H. split.
        + intros (a & b & ->). apply H. exists (c :: a), b. reflexivity.
        + intros [-> (p' & ->)]. apply H. exists [], p'. reflexivity.
      - intros [H1 H2] (a & b & H). destruct a as [|x a].
        + injection H as -> H. apply H2. split; [reflexivity|]. exists b. exact H.
        + injection H as -> ->. apply H1. exists a, b. reflexivity. }
    rewrite E. destruct (Byte.eqb c DOT) eqn:Ec.
    + apply beq_eq in Ec. subst c. destruct p as [|d p]; [split; [intros _|reflexivity]; split; [apply IH; reflexivity|]; intros [_ (p' & H)]; discriminate|].
      destruct (Byte.eqb d DOT) eqn:Ed.
      * apply beq_eq in Ed. subst d. split; [discriminate|]. intros [_ H]. exfalso. apply H. split; [reflexivity|]. exists p. reflexivity.
      * rewrite IH. apply beq_neq in Ed. split; [|tauto]. intros H. split; [exact H|]. intros [_ (p' & H')]. injection H' as -> _. contradiction.
    + rewrite IH. apply beq_neq in Ec. split; [|tauto]. intros H. split; [exact H|]. intros [-> _]. contradiction.
Qed.
(* ---- names ---- *)
Lemma split_slash_nil : forall p, split_slash p <> [].
Proof. intros [|c p]; cbn [split_slash]; [discriminate|]. destruct (split_slash p); [discriminate|]. destruct (Byte.eqb c SLASH); discriminate. Qed.
Lemma split_slash_app : forall a b, split_slash (a ++ SLASH :: b) = split_slash a ++ split_slash b.
Proof.
  induction a as [|c a IH]; intros b.
  - cbn [app split_slash]. pose proof (split_slash_nil b). destruct (split_slash b) as [|s ss]; [contradiction|]. rewrite beq_refl. reflexivity.
  - cbn [app split_slash]. rewrite IH. pose proof (split_slash_nil a). destruct (split_slash a) as [|s ss]; [contradiction|].
    cbn [app]. destruct (Byte.eqb c SLASH); reflexivity.
Qed.
Lemma names_app : forall a b, names (a ++ SLASH :: b) = names a ++ names b.
Proof. intros a b. unfold names. rewrite split_slash_app, filter_app. reflexivity. Qed.
Lemma names_nil : names [] = [].
Proof. reflexivity. Qed.
Lemma split_slash_parts : forall p s, In s (split_slash p) -> exists a b, p = a ++ s ++ b.
Proof.
  induction p as [|c p IH]; intros s H; cbn [split_slash] in H; [destruct H as [<-|[]]; exists [], []; reflexivity|].
  pose proof (split_slash_nil p) as Hn.
  assert (K : forall s0 ss, split_slash p = s0 :: ss -> exists b, p = s0 ++ b).
  { clear. induction p as [|d p IH]; intros s0 ss H; cbn [split_slash] in H; [injection H as <- _; exists []; reflexivity|].
    pose proof (split_slash_nil p). destruct (split_slash p) as [|s1 ss1]; [contradiction|]. destruct (Byte.eqb d SLASH).
    - injection H as <- _. exists (d :: p). reflexivity.
    - injection H as <- _. destruct (IH s1 ss1 eq_refl) as (b & ->). exists b. reflexivity. }
  destruct (split_slash p) as [|s0 ss] eqn:E; [contradiction|]. destruct (Byte.eqb c SLASH).
  - destruct H as [<-|H]; [exists [], (c :: p); reflexivity|]. destruct (IH s H) as (a & b & ->). exists (c :: a), b. reflexivity.
  - destruct H as [<-|H].
    + destruct (K s0 ss eq_refl) as (b & ->). exists [], b. reflexivity.
    + destruct (IH s (or_intror H)) as (a & b & ->). exists (c :: a), b. reflexivity.
Qed.
Lemma no_dots_names : forall p, NoDots p -> ~ In (B "..") (names p).
Proof.
  intros p H Hi. unfold names in Hi. apply filter_In in Hi. destruct Hi as [Hi _]. destruct (split_slash_parts p _ Hi) as (a & b & ->). apply H. exists a, b. reflexivity.
Qed.
Lemma no_dots_app : forall a b, NoDots (a ++ b) -> NoDots a /\ NoDots b.
Proof.
  intros a b H. split; intros (x & y & ->); apply H.
  - exists x, (y ++ b). rewrite <- !app_assoc. reflexivity.
  - exists (a ++ x), y. rewrite <- !app_assoc. reflexivity.
Qed.
Lemma slash_path_sep : forall p, SlashPath p -> using_separator p = SLASH.
Proof.
  intros p. induction p as [|c p IH]; intros H; cbn [using_separator]; [reflexivity|]. destruct (Byte.eqb c SLASH) eqn:E1; [apply beq_eq in E1; subst; reflexivity|].
  destruct (Byte.eqb c BACKSLASH) eqn:E2; [apply beq_eq in E2; subst; destruct (H [] p eq_refl)|]. cbn [orb]. apply IH.
  intros a b ->. destruct (H (c :: a) b eq_refl) as [Hc|Hi]; [subst c; rewrite beq_refl in E1; discriminate|exact Hi].
Qed.
Lemma trailing : forall p w, with_trailing_sep p = Some w -> exists q, w = q ++ [using_separator p] /\ (p = w \/ p = q) /\ p <> [].
Proof.
  intros p w H. unfold with_trailing_sep in H. destruct p as [|c p0] using rev_ind; [discriminate|]. rewrite last_byte_snoc in H. clear IHp0.
  destruct (Byte.eqb c (using_separator (p0 ++ [c]))) eqn:E.
  - injection H as <-. apply beq_eq in E. exists p0. rewrite <- E. split; [reflexivity|]. split; [left; reflexivity|]. destruct p0; discriminate.
  - injection H as <-. exists (p0 ++ [c]). split; [reflexivity|]. split; [right; reflexivity|]. destruct p0; discriminate.
Qed.
Lemma trailing_length : forall p w, with_trailing_sep p = Some w -> (List.length p <= List.length w <= S (List.length p))%nat /\ (1 <= List.length w)%nat.
Proof.
  intros p w H. destruct (trailing p w H) as (q & E & Hor & Hp). apply (f_equal (@List.length byte)) in E. rewrite app_length in E. cbn [List.length] in E.
  destruct Hor as [E2|E2]; apply (f_equal (@List.length byte)) in E2; lia.
Qed.
Lemma absolute_app : forall q s, q <> [] -> (absolute (q ++ s) <-> absolute q).
Proof.
  intros [|c q] s H; [contradiction|]. unfold absolute. cbn [app]. split; intros (p & E); injection E as -> E; eexists; reflexivity.
Qed.
Lemma absolute_root : forall root w q, with_trailing_sep root = Some w -> SlashPath root -> w = q ++ [SLASH] -> absolute w <-> absolute root.
Proof.
  intros root w q H Hs Ew. destruct (trailing root w H) as (q' & E & [H1|H1] & Hp); [subst; tauto|]. rewrite E, H1. apply absolute_app. congruence.
Qed.

Theorem below_root : forall prefix root pp b path file, new_path prefix root = Some pp -> SlashPath root ->
  (List.length (rp_prefix pp) <= S (List.length path))%nat -> snd (static_step pp b path) = SOpen file ->
  NoDots file /\ (file = [] \/ InRoot root file) /\
  ((List.length (rp_prefix pp) <= List.length path)%nat -> exists rest, Suffix rest path /\ file = rp_with pp ++ rest).
Proof.
  intros prefix root pp b path file Hn Hs Hl H. destruct (new_path_ok _ _ _ Hn) as (Hok & Hp & Hw). rewrite (history_irrelevant pp b path Hok) in H.
  destruct (trailing root _ Hw) as (q & Eq & Hor & Hr). rewrite (slash_path_sep root Hs) in Eq.
  assert (HN : names root = names q).
  { destruct Hor as [E|E]; rewrite E; [rewrite Eq; rewrite names_app, names_nil, app_nil_r; reflexivity|reflexivity]. }
  pose proof (trailing_length _ _ Hw) as [_ HW].
  unfold static_file in H. destruct (Nat.leb_spec (List.length (rp_prefix pp)) (List.length path)) as [L|L].
  - destruct (is_safe _) eqn:Es; [|discriminate]. injection H as <-. apply is_safe_dots in Es. split; [exact Es|].
    destruct (no_dots_app _ _ Es) as [_ Hd]. split.
    + right. exists (names (skipn (List.length (rp_prefix pp)) path)). split.
      * rewrite Eq, <- app_assoc. cbn [app]. rewrite names_app, HN. reflexivity.
      * split; [apply no_dots_names; exact Hd|]. rewrite absolute_app by (rewrite Eq; destruct q; discriminate). apply (absolute_root root _ q Hw Hs Eq).
    + intros _. exists (skipn (List.length (rp_prefix pp)) path). split; [|reflexivity]. exists (firstn (List.length (rp_prefix pp)) path). symmetry. apply firstn_skipn.
  - replace (List.length (rp_prefix pp) - List.length path)%nat with 1%nat in H by lia. destruct (Nat.leb_spec 1 (List.length (rp_with pp))); [|lia].
    destruct (is_safe _) eqn:Es; [|discriminate]. injection H as <-. apply is_safe_dots in Es. split; [exact Es|]. split; [|intros HH; lia].
    assert (EE : firstn (List.length (rp_with pp) - 1) (rp_with pp) = q).
    { rewrite Eq, app_length. cbn [List.length]. replace (List.length q + 1 - 1)%nat with (List.length q) by lia. rewrite firstn_app, firstn_all, Nat.sub_diag. cbn [firstn]. apply app_nil_r. }
    rewrite EE in *. destruct q as [|c q]; [left; reflexivity|]. right. exists []. split; [rewrite app_nil_r; symmetry; exact HN|]. split; [intros []|].
    rewrite <- (absolute_root root _ _ Hw Hs Eq), Eq. symmetry. apply absolute_app. discriminate.
Qed.
Theorem no_panic : forall prefix root pp b path, new_path prefix root = Some pp ->
  (List.length (rp_prefix pp) <= S (List.length path))%nat -> snd (static_step pp b path) <> SPanic.
Proof.
  intros prefix root pp b path Hn Hl. destruct (new_path_ok _ _ _ Hn) as (Hok & Hp & Hw). rewrite (history_irrelevant pp b path Hok).
  pose proof (trailing_length _ _ Hw) as [_ HW]. unfold static_file. destruct (Nat.leb_spec (List.length (rp_prefix pp)) (List.length path)).
  - destruct (is_safe _); discriminate.
  - destruct (Nat.leb_spec (List.length (rp_prefix pp) - List.length path) (List.length (rp_with pp))); [|lia]. destruct (is_safe _); discriminate.
Qed.
(* the paths a catcher gets are long enough, when its prefix is not shortened *)
Theorem caught_long_enough : forall prefix root pp catch path, new_path prefix root = Some pp ->
  (List.length prefix <= List.length catch)%nat -> Prefix catch path -> (List.length (rp_prefix pp) <= S (List.length path))%nat.
Proof.
  intros prefix root pp catch path Hn Hl (s & ->). destruct (new_path_ok _ _ _ Hn) as (_ & Hp & _). pose proof (trailing_length _ _ Hp) as [HL _].
  rewrite app_length. lia.
Qed.
(* a prefix and the rest *)
Theorem served_file : forall prefix root pp b rest, new_path prefix root = Some pp -> SlashPath prefix -> NoDots (rp_with pp ++ rest) ->
  (last_byte prefix <> Some SLASH -> snd (static_step pp b (prefix ++ SLASH :: rest)) = SOpen (rp_with pp ++ rest)) /\
  (last_byte prefix = Some SLASH -> snd (static_step pp b (prefix ++ rest)) = SOpen (rp_with pp ++ rest)).
Proof.
  intros prefix root pp b rest Hn Hs Hd. destruct (new_path_ok _ _ _ Hn) as (Hok & Hp & Hw). rewrite !(history_irrelevant pp b _ Hok).
  apply is_safe_dots in Hd. unfold with_trailing_sep in Hp. rewrite (slash_path_sep prefix Hs) in Hp. unfold static_file. split; intros Hl.
  - destruct (last_byte prefix) as [c|] eqn:El; [|discriminate]. assert (Ec : Byte.eqb c SLASH = false) by (apply beq_neq; congruence). rewrite Ec in Hp. injection Hp as <-.
    rewrite app_length. cbn [List.length]. destruct (Nat.leb_spec (List.length prefix + 1) (List.length (prefix ++ SLASH :: rest))) as [L|L]; [|rewrite app_length in L; cbn [List.length] in L; lia].
    assert (E : skipn (List.length prefix + 1) (prefix ++ SLASH :: rest) = rest).
    { rewrite skipn_app, skipn_all2 by lia. replace (List.length prefix + 1 - List.length prefix)%nat with 1%nat by lia. reflexivity. }
    rewrite E, Hd. reflexivity.
  - rewrite Hl, beq_refl in Hp. injection Hp as <-. destruct (Nat.leb_spec (List.length prefix) (List.length (prefix ++ rest))) as [L|L]; [|rewrite app_length in L; lia].
    rewrite skipn_app, skipn_all2, Nat.sub_diag by lia. cbn [app skipn]. rewrite Hd. reflexivity.
Qed.

(* ---- the route ---- *)
Section Route.
Variable W : Type.
Variables (pget : W -> pbuf) (pput : pbuf -> W -> W) (files : W -> bytes -> fields).
(* what the handler of the route answers for a file *)
Definition Serves_file (w : world W) (file : bytes) (p : hprog (world W)) : Prop :=
  exists b, p = HRet (Some (files (pput b (fst w)) file)) (pput b (fst w), snd w).
Theorem static_served : forall (os : list (list nat * rop W)) x w r prefix root o rest,
  Running os x -> static_call prefix root pget pput files [] = Some o -> In ([], o) os -> uses os [] = [] ->
  path_clean prefix = prefix -> SlashPath prefix -> last_byte prefix <> Some SLASH ->
  r_path r = prefix ++ SLASH :: rest ->
  (forall p h, In (p, h) (caught os) -> Prefix p (r_path r) -> p = prefix \/ (List.length p < List.length prefix)%nat) ->
  (forall h h', In (prefix, h) (caught os) -> In (prefix, h') (caught os) -> h = h') ->
  forall w', with_trailing_sep root = Some w' -> NoDots (w' ++ rest) ->
  Serves_file w (w' ++ rest) (on_err x w r (EHttp ErrNotFound)).
Proof.
  intros os x w r prefix root o rest HR Ho Hi Hu Hc Hs Hl Hp Hlong Huni w' Hw' Hd. unfold static_call in Ho.
  destruct (new_path prefix root) as [pp|] eqn:En; [|discriminate]. injection Ho as <-.
  destruct (new_path_ok _ _ _ En) as (Hok & Hpp & Hww). rewrite Hww in Hw'. injection Hw' as <-.
  set (h := behind (chain os [] ++ []) (static_handler pp pget pput files)).
  assert (Hin : In (prefix, h) (caught os)).
  { apply in_caught. exists [], prefix, (static_handler pp pget pput files), []. split; [exact Hi|]. split; [|reflexivity].
    unfold full_prefix, prefix_below, path_join. destruct prefix; [discriminate|]. symmetry. exact Hc. }
  assert (HP : Prefix prefix (r_path r)) by (exists (SLASH :: rest); exact Hp).
  rewrite (caught_longest W os x w r prefix h HR Hin HP).
  - unfold h, chain. cbn [chain_below]. rewrite Hu. cbn [app behind fold_right]. unfold static_handler.
    destruct (served_file prefix root pp (pget (fst w)) rest En Hs Hd) as [S1 _]. specialize (S1 Hl). rewrite <- Hp in S1.
    destruct (static_step pp (pget (fst w)) (r_path r)) as [b res]. cbn [snd] in S1. subst res. exists b. reflexivity.
  - intros p' h' H1 H2. destruct (Hlong p' h' H1 H2) as [ -> |H]; lia.
  - intros h' H1. apply (Huni h' h H1 Hin).
Qed.
End Route.

(* ---- one request after the other ---- *)
Definition outcome_of (pp : replacer) (path : bytes) : thread :=
  match static_file pp path with
  | Some f => if is_safe f then TOpened path f else TRefused path
  | None => TPanicked path
  end.
Lemma set_nth_same : forall ts i t, (i < List.length ts)%nat -> nth_error (set_nth ts i t) i = Some t.
Proof. induction ts as [|x ts IH]; intros [|i] t H; cbn in *; try lia; [reflexivity|]. apply IH. lia. Qed.
Lemma set_nth_other : forall ts i j t, i <> j -> nth_error (set_nth ts i t) j = nth_error ts j.
Proof. induction ts as [|x ts IH]; intros [|i] [|j] t H; cbn; try reflexivity; [congruence|]. apply IH. congruence. Qed.
Lemma set_nth_length : forall ts i t, List.length (set_nth ts i t) = List.length ts.
Proof. induction ts as [|x ts IH]; intros [|i] t; cbn; try reflexivity. rewrite IH. reflexivity. Qed.
Lemma write_buf_same : forall h i b, (i < List.length h)%nat -> read_buf (write_buf h i b) i = b.
Proof. unfold read_buf. induction h as [|x h IH]; intros [|i] b H; cbn in *; try lia; [reflexivity|]. apply IH. lia. Qed.
Lemma write_buf_length : forall h i b, List.length (write_buf h i b) = List.length h.
Proof. induction h as [|x h IH]; intros [|i] b; cbn; try reflexivity. rewrite IH. reflexivity. Qed.
Lemma read_buf_last : forall h b, read_buf (h ++ [b]) (List.length h) = b.
Proof. intros h b. unfold read_buf. rewrite app_nth2, Nat.sub_diag by lia. reflexivity. Qed.
Definition sh_ok (s : shared) : Prop := (sh_cur s < List.length (sh_heap s))%nat.
Lemma one_request : forall pp s ts i path, pp_ok pp -> sh_ok s -> nth_error ts i = Some (TWaits path) ->
  exists s' ts', sched pp [i; i; i; i] (s, ts) = (s', ts') /\ sh_ok s' /\ nth_error ts' i = Some (outcome_of pp path) /\
    List.length ts' = List.length ts /\ forall j, j <> i -> nth_error ts' j = nth_error ts j.
Proof.
  intros pp s ts i path Hok Hs Hi.
  assert (Hlt : (i < List.length ts)%nat) by (apply nth_error_Some; congruence).
  assert (HS : exists s1, sched_step pp (s, ts) i = (s1, set_nth ts i (TSet path)) /\ sh_ok s1 /\
     PBuf (read_buf (sh_heap s1) (sh_cur s1)) (sh_len s1) = pp_set pp path (PBuf (read_buf (sh_heap s) (sh_cur s)) (sh_len s))).
  { unfold sched_step. rewrite Hi. cbn [thread_step]. destruct (Nat.ltb _ _).
    - eexists. split; [reflexivity|]. unfold sh_ok. cbn [sh_heap sh_cur sh_len]. split; [rewrite app_length; cbn; lia|]. rewrite read_buf_last. destruct (pp_set _ _ _); reflexivity.
    - eexists. split; [reflexivity|]. unfold sh_ok. cbn [sh_heap sh_cur sh_len]. split; [rewrite write_buf_length; exact Hs|]. rewrite write_buf_same by exact Hs. destruct (pp_set _ _ _); reflexivity. }
  destruct HS as (s1 & E1 & Hs1 & Hb1). set (b0 := PBuf (read_buf (sh_heap s) (sh_cur s)) (sh_len s)) in *.
  pose proof (static_closed pp b0 path Hok) as HC.
  assert (Hstuck : forall s0 ts0 t, nth_error ts0 i = Some t -> (forall s', thread_step pp s' t = (s', t)) -> sched_step pp (s0, ts0) i = (s0, set_nth ts0 i t)).
  { intros s0 ts0 t H1 H2. unfold sched_step. rewrite H1, H2. reflexivity. }
  assert (HF : forall s0 ts0 t, List.length ts0 = List.length ts -> nth_error ts0 i = Some t -> (forall s', thread_step pp s' t = (s', t)) ->
     (forall j, j <> i -> nth_error ts0 j = nth_error ts j) -> forall n, exists ts', fold_left (sched_step pp) (repeat i n) (s0, ts0) = (s0, ts') /\
       nth_error ts' i = Some t /\ List.length ts' = List.length ts /\ forall j, j <> i -> nth_error ts' j = nth_error ts j).
  { intros s0 ts0 t H1 H2 H3 H4 n. revert ts0 H1 H2 H4. induction n as [|n IH]; intros ts0 H1 H2 H4; [exists ts0; auto|].
    cbn [repeat fold_left]. rewrite (Hstuck s0 ts0 t H2 H3). apply IH; [rewrite set_nth_length; exact H1|apply set_nth_same; lia|].
    intros j Hj. rewrite set_nth_other by congruence. apply H4. exact Hj. }
  unfold sched. cbn [fold_left]. rewrite E1. unfold sched_step at 3. rewrite set_nth_same by exact Hlt. cbn [thread_step]. rewrite Hb1.
  destruct (pp_relative pp (pp_set pp path b0)) as [[[b' from] to]|].
  - destruct HC as [HC HL]. set (s2 := Shared (write_buf (sh_heap s1) (sh_cur s1) (pb_buff b')) (sh_cur s1) (sh_len s1)).
    set (ts2 := set_nth (set_nth ts i (TSet path)) i (TNamed path (sh_cur s1) from to)).
    assert (Hs2 : sh_ok s2) by (unfold sh_ok, s2; cbn [sh_heap sh_cur]; rewrite write_buf_length; exact Hs1).
    assert (L2 : List.length ts2 = List.length ts) by (unfold ts2; rewrite !set_nth_length; reflexivity).
    assert (N2 : nth_error ts2 i = Some (TNamed path (sh_cur s1) from to)) by (apply set_nth_same; rewrite set_nth_length; exact Hlt).
    assert (O2 : forall j, j <> i -> nth_error ts2 j = nth_error ts j) by (intros j Hj; unfold ts2; rewrite !set_nth_other by congruence; reflexivity).
    assert (R2 : slice (read_buf (sh_heap s2) (sh_cur s1)) from to = slice (pb_buff b') from to).
    { unfold s2. cbn [sh_heap]. rewrite write_buf_same by exact Hs1. reflexivity. }
    clearbody s2 ts2. unfold sched_step at 2. rewrite N2. cbn [thread_step]. rewrite R2. unfold outcome_of. rewrite HC.
    destruct (is_safe (slice (pb_buff b') from to)).
    + unfold sched_step. rewrite set_nth_same by lia. cbn [thread_step]. rewrite R2. eexists. eexists. split; [reflexivity|]. split; [exact Hs2|].
      split; [apply set_nth_same; rewrite set_nth_length; lia|]. split; [rewrite !set_nth_length; exact L2|]. intros j Hj. rewrite !set_nth_other by congruence. apply O2. exact Hj.
    + destruct (HF s2 (set_nth ts2 i (TRefused path)) (TRefused path)) with (n := 1%nat) as (ts' & F1 & F2 & F3 & F4).
      * rewrite set_nth_length; exact L2.
      * apply set_nth_same; lia.
      * reflexivity.
      * intros j Hj. rewrite set_nth_other by congruence. apply O2. exact Hj.
      * exists s2, ts'. split; [exact F1|]. auto.
  - unfold outcome_of. rewrite HC.
    destruct (HF s1 (set_nth (set_nth ts i (TSet path)) i (TPanicked path)) (TPanicked path)) with (n := 2%nat) as (ts' & F1 & F2 & F3 & F4).
    + rewrite !set_nth_length. reflexivity.
    + apply set_nth_same. rewrite set_nth_length. exact Hlt.
    + reflexivity.
    + intros j Hj. rewrite !set_nth_other by congruence. reflexivity.
    + exists s1, ts'. split; [exact F1|]. auto.
Qed.
Theorem serial_requests : forall pp order s ts, pp_ok pp -> sh_ok s -> NoDup order ->
  (forall i, In i order -> exists path, nth_error ts i = Some (TWaits path)) ->
  forall i path, In i order -> nth_error ts i = Some (TWaits path) ->
  nth_error (snd (sched pp (flat_map (fun i => [i; i; i; i]) order) (s, ts))) i = Some (outcome_of pp path).
Proof.
  intros pp order. induction order as [|k order IH]; intros s ts Hok Hs Hn Hw i path Hi Hp; [contradiction|].
  cbn [flat_map]. unfold sched. rewrite fold_left_app. inversion Hn as [|? ? N1 N2]; subst.
  destruct (Hw k (or_introl eq_refl)) as (pk & Hk). destruct (one_request pp s ts k pk Hok Hs Hk) as (s' & ts' & E & Hs' & Hi' & HL & Ho).
  unfold sched in E. rewrite E.
  destruct (Nat.eq_dec i k) as [ -> |Hne].
  - assert (pk = path) by congruence. subst pk.
    assert (K : forall order s0 ts0 t, ~ In k order -> nth_error ts0 k = Some t -> nth_error (snd (fold_left (sched_step pp) (flat_map (fun i => [i; i; i; i]) order) (s0, ts0))) k = Some t).
    { clear. intros order. induction order as [|j order IH]; intros s0 ts0 t Hni Ht; [exact Ht|]. cbn [flat_map]. rewrite fold_left_app.
      assert (KK : forall n x, nth_error (snd x) k = Some t -> nth_error (snd (fold_left (sched_step pp) (repeat j n) x)) k = Some t).
      { intros n. induction n as [|n IHn]; intros [s1 ts1] H1; [exact H1|]. cbn [repeat fold_left]. apply IHn. unfold sched_step.
        destruct (nth_error ts1 j); [|exact H1]. destruct (thread_step pp s1 t0). cbn [snd]. rewrite set_nth_other; [exact H1|]. intros ->. apply Hni. left. reflexivity. }
      specialize (KK 4%nat (s0, ts0) Ht). cbn [repeat] in KK. destruct (fold_left (sched_step pp) [j; j; j; j] (s0, ts0)) as [s2 ts2]. apply IH; [|exact KK].
      intros H. apply Hni. right. exact H. }
    apply K; assumption.
  - destruct Hi as [Hi|Hi]; [congruence|]. apply IH; try assumption.
    + intros j Hj. assert (j <> k) by (intros ->; contradiction). rewrite Ho by assumption. apply Hw. right. exact Hj.
    + rewrite Ho by exact Hne. exact Hp.
Qed.

(* ---- TRACE ---- *)
Lemma concat_snoc : forall (l : list bytes) x, concat (l ++ [x]) = concat l ++ x.
Proof. intros l x. rewrite concat_app. cbn [concat]. rewrite app_nil_r. reflexivity. Qed.
Theorem trace_whole : forall W (x : runtime W) w r, r_method r = TRACE ->
  let text := snd w ++ request_text (trace_line r) (kv_pairs (r_headers r) ++ [(B "Content-Length", B "0")]) in
  on_err x w r (EHttp ErrMethodNotAllowed) = HRet (Some (Fields 200%N [] (B "message/http") [] [] text [] None)) (fst w, text).
Proof.
  intros W x w r Hm text. unfold on_err. rewrite Hm. change (method_eqb TRACE TRACE && is_err (EHttp ErrMethodNotAllowed) ErrMethodNotAllowed) with true. cbn iota zeta.
  assert (E : render_request r (snd w) = text).
  { unfold text, render_request, request_text, trace_line, request_line, render_uri, render_fields.
    rewrite map_app. cbn [map fst snd]. rewrite concat_snoc, <- !app_assoc. reflexivity. }
  exact (f_equal (fun t => HRet (Some (trace_response t)) (fst w, t)) E).
Qed.
Theorem trace_body : forall W (x : runtime W) w r, r_method r = TRACE ->
  exists f, on_err x w r (EHttp ErrMethodNotAllowed) = HRet (Some f) (fst w, f_body f) /\ f_code f = 200%N /\
    f_body f = snd w ++ request_text (trace_line r) (kv_pairs (r_headers r) ++ [(B "Content-Length", B "0")]).
Proof. intros W x w r Hm. rewrite (trace_whole W x w r Hm).
  exists (Fields 200%N [] (B "message/http") [] [] (snd w ++ request_text (trace_line r) (kv_pairs (r_headers r) ++ [(B "Content-Length", B "0")])) [] None). repeat split. Qed.
Theorem traces_accumulate : forall W (x : runtime W) rs w, Forall (fun r => r_method r = TRACE) rs ->
  trace_bodies x w rs = running_concat (snd w) (map (fun r => request_text (trace_line r) (kv_pairs (r_headers r) ++ [(B "Content-Length", B "0")])) rs).
Proof.
  intros W x rs. induction rs as [|r rs IH]; intros w H; [reflexivity|]. inversion H as [|? ? H1 H2]; subst. cbn [trace_bodies map running_concat].
  destruct (trace_body W x w r H1) as (f & E & _ & Eb). rewrite E, (IH _ H2). cbn [snd]. rewrite Eb. reflexivity.
Qed.
Lemma dots_app : forall a b, NoDots (a ++ b) -> NoDots a.
Proof. intros a b H (x & y & E). apply H. exists x, (y ++ b). rewrite E, <- !app_assoc. reflexivity. Qed.
Theorem dotted_root : forall prefix root pp b path, new_path prefix root = Some pp -> ~ NoDots root ->
  (List.length (rp_prefix pp) <= List.length path)%nat -> snd (static_step pp b path) = SNotFound.
Proof.
  intros prefix root pp b path Hp Hd L. destruct (new_path_ok _ _ _ Hp) as (Hok & _ & Hw). rewrite (history_irrelevant pp b path Hok).
  unfold static_file. destruct (Nat.leb_spec (List.length (rp_prefix pp)) (List.length path)) as [_|L']; [|lia].
  destruct (is_safe _) eqn:E; [|reflexivity]. apply is_safe_dots in E. exfalso. apply Hd. apply dots_app in E.
  unfold with_trailing_sep in Hw. destruct (last_byte root) as [c|]; [|discriminate].
  destruct (Byte.eqb c (using_separator root)); apply (f_equal (fun o => match o with Some l => l | None => [] end)) in Hw; rewrite <- Hw in E; [exact E|].
  exact (dots_app _ _ E).
Qed.

(* the handler: either the file of a path without two dots in a row, or 404 *)
Theorem handler_answers : forall W (pget : W -> pbuf) pput files prefix root pp w r, new_path prefix root = Some pp ->
  (List.length (rp_prefix pp) <= S (List.length (r_path r)))%nat ->
  exists b, static_handler pp pget pput files w r =
    HRet (Some (match static_step pp (pget (fst w)) (r_path r) with
                | (_, SOpen file) => files (pput b (fst w)) file
                | _ => Fields 404%N [] (B "text/html") [] [] [] [] None
                end)) (pput b (fst w), snd w).
Proof.
  intros W pget pput files prefix root pp w r Hn Hl. pose proof (no_panic prefix root pp (pget (fst w)) (r_path r) Hn Hl) as H.
  unfold static_handler. destruct (static_step pp (pget (fst w)) (r_path r)) as [b [file| |]]; exists b; try reflexivity. contradiction H. reflexivity.
Qed.
Theorem dots_refused : forall W (pget : W -> pbuf) pput files prefix root pp w r rest, new_path prefix root = Some pp -> SlashPath prefix -> last_byte prefix <> Some SLASH ->
  r_path r = prefix ++ SLASH :: rest -> ~ NoDots rest ->
  exists b, static_handler pp pget pput files w r = HRet (Some (Fields 404%N [] (B "text/html") [] [] [] [] None)) (pput b (fst w), snd w).
Proof.
  intros W pget pput files prefix root pp w r rest Hn Hs Hl Hr Hd. destruct (new_path_ok _ _ _ Hn) as (Hok & Hp & Hw).
  unfold with_trailing_sep in Hp. rewrite (slash_path_sep prefix Hs) in Hp.
  destruct (last_byte prefix) as [c|] eqn:El; [|discriminate]. assert (Ec : Byte.eqb c SLASH = false) by (apply beq_neq; congruence). rewrite Ec in Hp. injection Hp as Hp.
  assert (L : (List.length (rp_prefix pp) <= List.length (r_path r))%nat) by (rewrite <- Hp, Hr, !app_length; cbn [List.length]; lia).
  destruct (handler_answers W pget pput files prefix root pp w r Hn ltac:(lia)) as (b & E). exists b. rewrite E.
  assert (S : snd (static_step pp (pget (fst w)) (r_path r)) = SNotFound).
  { rewrite (history_irrelevant pp _ _ Hok). unfold static_file. destruct (Nat.leb_spec (List.length (rp_prefix pp)) (List.length (r_path r))) as [_|L']; [|lia].
    destruct (is_safe _) eqn:Es; [|reflexivity]. exfalso. apply is_safe_dots in Es. apply Hd. intros (x & y & Ex). apply Es.
    exists (rp_with pp ++ x), y. rewrite <- app_assoc. f_equal. rewrite <- Ex. rewrite <- Hp, Hr. rewrite app_length. cbn [List.length].
    rewrite skipn_app, skipn_all2 by lia. replace (List.length prefix + 1 - List.length prefix)%nat with 1%nat by lia. reflexivity. }
  destruct (static_step pp (pget (fst w)) (r_path r)) as [b' s']. cbn [snd] in S. subst s'. reflexivity.
Qed.
