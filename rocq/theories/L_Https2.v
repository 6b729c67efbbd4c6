(* Lemmas on path cleaning, the cache directory and local addresses. *)
From Verif Require Import M_Base M_Path M_Request M_Address M_App M_Https S_Https L_Base.

(* ---------------------------------------------------------------- path.Clean *)
Definition plain (e : bytes) : Prop := e <> [] /\ e <> B "." /\ e <> B ".." /\ ~ In SLASH e.
Inductive CanonR (r : bool) : list bytes -> Prop :=
| CR_nil : CanonR r []
| CR_plain e out : plain e -> CanonR r out -> CanonR r (e :: out)
| CR_up out : r = false -> Forall (eq (B "..")) out -> CanonR r (B ".." :: out).

Lemma plain_tests : forall e, plain e -> beqb e [] || beqb e (B ".") = false /\ beqb e (B "..") = false.
Proof.
  intros e (H1 & H2 & H3 & _). split.
  - apply orb_false_intro; apply not_true_is_false; intros E; apply beqb_eq in E; contradiction.
  - apply not_true_is_false; intros E; apply beqb_eq in E; contradiction.
Qed.
Lemma ups_canon : forall out, Forall (eq (B "..")) out -> CanonR false out.
Proof. intros [|e out] H; [constructor|]. inversion H; subst. apply CR_up; auto. Qed.

Lemma clean_canon : forall r es out, Forall (fun e => ~ In SLASH e) es -> CanonR r out -> exists cs, clean_elems r es out = rev cs /\ CanonR r cs.
Proof.
  intros r. induction es as [|e es IH]; intros out F C; [exists out; auto|]. inversion F as [|? ? F1 F2]; subst. cbn [clean_elems].
  destruct (beqb e [] || beqb e (B ".")) eqn:E1; [apply IH; assumption|]. destruct (beqb e (B "..")) eqn:E2.
  - apply beqb_eq in E2. subst e. destruct out as [|o out'].
    + destruct r; [apply IH; [assumption|constructor]|]. apply IH; [assumption|]. apply CR_up; [reflexivity|constructor].
    + destruct (beqb o (B "..")) eqn:E3.
      * apply beqb_eq in E3. subst o. apply IH; [assumption|]. inversion C; subst.
        -- destruct H1 as (_ & _ & N & _). now contradict N.
        -- apply CR_up; [assumption|]. constructor; auto.
      * apply IH; [assumption|]. inversion C; subst; [assumption|]. rewrite beqb_refl in E3. discriminate.
  - apply IH; [assumption|]. apply CR_plain; [|assumption]. apply orb_false_elim in E1. destruct E1 as [E0 E1]. repeat split; try assumption; intros ->; rewrite beqb_refl in *; discriminate.
Qed.
Lemma canon_suffix : forall r a b, CanonR r (a ++ b) -> CanonR r b.
Proof.
  intros r. induction a as [|e a IH]; intros b H; [exact H|]. cbn in H. inversion H; subst; [apply IH; assumption|].
  rewrite Forall_app in H3. destruct H3 as [_ H3]. apply ups_canon. exact H3.
Qed.
Lemma clean_id : forall r cs out, CanonR r (rev cs ++ out) -> clean_elems r cs out = rev out ++ cs.
Proof.
  intros r. induction cs as [|e cs IH]; intros out C; [cbn; rewrite app_nil_r; reflexivity|]. cbn [rev] in C. rewrite <- app_assoc in C. cbn [app] in C.
  assert (G : clean_elems r cs (e :: out) = rev out ++ e :: cs). { rewrite (IH (e :: out) C). cbn [rev]. rewrite <- app_assoc. reflexivity. }
  pose proof (canon_suffix _ _ _ C) as C1. cbn [clean_elems]. inversion C1; subst.
  - destruct (plain_tests e H1) as [-> ->]. exact G.
  - replace (beqb (B "..") [] || beqb (B "..") (B ".")) with false by reflexivity. rewrite beqb_refl. destruct out as [|o out']; [exact G|].
    inversion H2; subst. rewrite beqb_refl. exact G.
Qed.
Lemma clean_app : forall r es e out, plain e -> clean_elems r (es ++ [e]) out = clean_elems r es out ++ [e].
Proof.
  intros r es e out P. destruct (plain_tests e P) as [T1 T2]. revert out. induction es as [|x es IH]; intros out.
  - cbn [app clean_elems]. rewrite T1, T2. cbn [rev]. reflexivity.
  - cbn [app clean_elems]. destruct (beqb x [] || beqb x (B ".")); [apply IH|]. destruct (beqb x (B "..")); [|apply IH].
    destruct out; [destruct r; apply IH|]. destruct (beqb b (B "..")); apply IH.
Qed.
Lemma split_ne : forall p, split_slash p <> [].
Proof. intros [|c p]; cbn; [discriminate|]. destruct (split_slash p); [discriminate|]. destruct (Byte.eqb c SLASH); discriminate. Qed.
Lemma split_app : forall a b, split_slash (a ++ SLASH :: b) = split_slash a ++ split_slash b.
Proof.
  induction a as [|c a IH]; intros b.
  - cbn [app split_slash]. pose proof (split_ne b). destruct (split_slash b); [contradiction|]. reflexivity.
  - cbn [app split_slash]. rewrite IH. pose proof (split_ne a). destruct (split_slash a) as [|s ss]; [contradiction|]. cbn [app]. destruct (Byte.eqb c SLASH); reflexivity.
Qed.
Lemma split_free : forall p, ~ In SLASH p -> split_slash p = [p].
Proof.
  induction p as [|c p IH]; intros N; [reflexivity|]. cbn [split_slash]. rewrite IH by (intros H; apply N; now right).
  destruct (Byte.eqb c SLASH) eqn:E; [|reflexivity]. apply beq_eq in E. exfalso. apply N. left. exact E.
Qed.
Lemma split_parts : forall p, Forall (fun e => ~ In SLASH e) (split_slash p).
Proof.
  induction p as [|c p IH]; [repeat constructor; intros []|]. cbn [split_slash]. pose proof (split_ne p). destruct (split_slash p) as [|s ss]; [contradiction|].
  inversion IH; subst. destruct (Byte.eqb c SLASH) eqn:E; [constructor; [intros []|assumption]|]. constructor; [|assumption]. apply beq_neq in E. intros [H0|H0]; [congruence|contradiction].
Qed.
Lemma split_join : forall cs, cs <> [] -> Forall (fun e => ~ In SLASH e) cs -> split_slash (join_slash cs) = cs.
Proof.
  induction cs as [|e cs IH]; intros N F; [contradiction|]. inversion F; subst. destruct cs as [|e' cs']; [apply split_free; assumption|].
  change (join_slash (e :: e' :: cs')) with (e ++ SLASH :: join_slash (e' :: cs')). rewrite split_app, split_free by assumption. rewrite IH by (try discriminate; assumption). reflexivity.
Qed.
Lemma canon_free : forall r cs, CanonR r cs -> Forall (fun e => e <> [] /\ ~ In SLASH e) cs.
Proof.
  intros r cs H. induction H; constructor.
  - destruct H as (H1 & _ & _ & H2). auto.
  - assumption.
  - split; [discriminate|]. cbn. intros [K|[K|[]]]; discriminate.
  - revert H0. apply Forall_impl. intros e <-. split; [discriminate|]. cbn. intros [K|[K|[]]]; discriminate.
Qed.
Lemma join_snoc : forall cs e, cs <> [] -> join_slash (cs ++ [e]) = join_slash cs ++ SLASH :: e.
Proof.
  induction cs as [|c cs IH]; intros e N; [contradiction|]. destruct cs as [|c' cs']; [reflexivity|]. change (join_slash ((c :: c' :: cs') ++ [e])) with (c ++ SLASH :: join_slash ((c' :: cs') ++ [e])).
  rewrite IH by discriminate. change (join_slash (c :: c' :: cs')) with (c ++ SLASH :: join_slash (c' :: cs')). rewrite <- app_assoc. reflexivity.
Qed.

(* a cleaned path: its elements *)
Definition root_text (r : bool) : bytes := if r then [SLASH] else [].
Lemma clean_text : forall p base, plain base -> exists r cs, CanonR r (base :: rev cs) /\ r = has_prefix p [SLASH] || beqb p [] /\
  path_clean (p ++ SLASH :: base) = root_text r ++ join_slash (cs ++ [base]).
Proof.
  intros p base P. set (r := has_prefix (p ++ SLASH :: base) [SLASH]). destruct (clean_canon r (split_slash p) [] (split_parts p) (CR_nil r)) as (cs & E & C).
  exists r, (rev cs). split; [rewrite rev_involutive; apply CR_plain; assumption|]. split.
  { unfold r. destruct p as [|c p']; [destruct base; reflexivity|]. cbn. rewrite orb_false_r. destruct (p' ++ SLASH :: base), p'; reflexivity. }
  unfold path_clean. fold r. rewrite split_app. assert (S1 : split_slash base = [base]) by (apply split_free; apply P). rewrite S1, clean_app by assumption. rewrite E.
  change (if r then [SLASH] else []) with (root_text r). destruct (root_text r ++ join_slash (rev cs ++ [base])) eqn:T; [|reflexivity]. exfalso.
  apply app_eq_nil in T. destruct T as [_ T]. destruct (rev cs) as [|x l].
  - cbn in T. subst. destruct P as [N _]. contradiction.
  - rewrite join_snoc in T by discriminate. apply app_eq_nil in T. destruct T as [_ T]. discriminate.
Qed.
Lemma canon_text : forall r cs, cs <> [] -> CanonR r (rev cs) -> path_clean (root_text r ++ join_slash cs) = root_text r ++ join_slash cs.
Proof.
  intros r cs N C. pose proof (canon_free _ _ C) as F0. assert (F : Forall (fun e => e <> [] /\ ~ In SLASH e) cs).
  { rewrite Forall_forall in *. intros e He. apply F0. rewrite <- in_rev. exact He. }
  assert (F2 : Forall (fun e => ~ In SLASH e) cs) by (revert F; apply Forall_impl; tauto).
  assert (Hd : exists c t, join_slash cs = c :: t /\ c <> SLASH).
  { destruct cs as [|e cs']; [contradiction|]. inversion F as [|? ? [F3 F4] F5]; subst. destruct e as [|c e']; [contradiction|]. exists c. destruct cs' as [|e2 cs2]; eexists; (split; [reflexivity|]); intros ->; apply F4; now left. }
  destruct Hd as (c & t & Ej & Nc).
  assert (R1 : has_prefix (root_text r ++ join_slash cs) [SLASH] = r). { destruct r; [cbn; destruct (join_slash cs); reflexivity|]. cbn [root_text app]. rewrite Ej. cbn. apply beq_neq in Nc. rewrite Nc. reflexivity. }
  assert (E1 : clean_elems r (split_slash (root_text r ++ join_slash cs)) [] = cs).
  { destruct r; cbn [root_text app].
    - change (SLASH :: join_slash cs) with ([] ++ SLASH :: join_slash cs). rewrite split_app, split_join by assumption. cbn [split_slash app clean_elems beqb orb]. rewrite clean_id by (rewrite app_nil_r; exact C). reflexivity.
    - rewrite split_join by assumption. rewrite clean_id by (rewrite app_nil_r; exact C). reflexivity. }
  unfold path_clean. rewrite R1, E1. change (if r then [SLASH] else []) with (root_text r). destruct (root_text r ++ join_slash cs) eqn:T; [|reflexivity].
  exfalso. apply app_eq_nil in T. destruct T as [_ T]. congruence.
Qed.
(* a file directly in a cleaned directory *)
Lemma clean_file : forall p base f, plain base -> plain f -> let d := path_clean (p ++ SLASH :: base) in
  path_clean (d ++ SLASH :: f) = d ++ SLASH :: f /\ (exists a, d = a ++ base /\ (a = [] \/ exists a', a = a' ++ [SLASH])).
Proof.
  intros p base f P1 P2. destruct (clean_text p base P1) as (r & cs & C & _ & E). cbv zeta. rewrite E.
  assert (J : root_text r ++ join_slash (cs ++ [base]) ++ SLASH :: f = root_text r ++ join_slash ((cs ++ [base]) ++ [f])) by (rewrite (join_snoc (cs ++ [base]) f); [reflexivity|destruct cs; discriminate]).
  split.
  - rewrite <- app_assoc, J. apply canon_text; [destruct cs; discriminate|]. rewrite !rev_app_distr. cbn [rev app]. apply CR_plain; assumption.
  - destruct cs as [|e cs'].
    + exists (root_text r). split; [reflexivity|]. destruct r; [right; exists []; reflexivity|left; reflexivity].
    + rewrite join_snoc by discriminate. exists (root_text r ++ join_slash (e :: cs') ++ [SLASH]). split; [rewrite <- !app_assoc; reflexivity|]. right. exists (root_text r ++ join_slash (e :: cs')). rewrite <- app_assoc. reflexivity.
Qed.

(* ---------------------------------------------------------------- the cache directory *)
Lemma file_join_ne : forall e es, e <> [] -> file_join (e :: es) = path_clean (join_elems (e :: es)).
Proof. intros [|c e] es N; [contradiction|]. reflexivity. Qed.
Lemma join_elems_snoc : forall es e, es <> [] -> join_elems (es ++ [e]) = join_elems es ++ SLASH :: e.
Proof.
  induction es as [|c es IH]; intros e N; [contradiction|]. destruct es as [|c' es']; [reflexivity|]. change (join_elems ((c :: c' :: es') ++ [e])) with (c ++ SLASH :: join_elems ((c' :: es') ++ [e])).
  rewrite IH by discriminate. change (join_elems (c :: c' :: es')) with (c ++ SLASH :: join_elems (c' :: es')). rewrite <- app_assoc. reflexivity.
Qed.
Lemma plain_base : plain cache_base.
Proof. repeat split; try discriminate. vm_compute. intuition discriminate. Qed.
Lemma plain_crt : plain (B "localhost.crt").
Proof. repeat split; try discriminate. vm_compute. intuition discriminate. Qed.
Lemma plain_key : plain (B "localhost.key").
Proof. repeat split; try discriminate. vm_compute. intuition discriminate. Qed.

Lemma cache_clean : forall os wj getenv, os <> Windows -> exists p, p <> [] /\ cache_dir os wj getenv = path_clean (p ++ SLASH :: cache_base).
Proof.
  intros os wj getenv N. destruct os; [|contradiction|]; unfold cache_dir, os_join.
  - set (h := home_dir Darwin getenv). assert (Hh : h <> []) by (unfold h, home_dir; destruct (getenv (B "HOME")); discriminate).
    rewrite file_join_ne by exact Hh. exists (join_elems [h; B "Library"; B "Caches"]). split; [destruct h; [contradiction|discriminate]|].
    change [h; B "Library"; B "Caches"; cache_base] with ([h; B "Library"; B "Caches"] ++ [cache_base]). rewrite join_elems_snoc by discriminate. reflexivity.
  - destruct (getenv (B "XDG_CACHE_HOME")) as [|c x] eqn:X.
    + set (h := home_dir OtherOS getenv). assert (Hh : h <> []) by (unfold h, home_dir; destruct (getenv (B "HOME")); discriminate).
      rewrite file_join_ne by exact Hh. exists (join_elems [h; B ".cache"]). split; [destruct h; [contradiction|discriminate]|].
      change [h; B ".cache"; cache_base] with ([h; B ".cache"] ++ [cache_base]). rewrite join_elems_snoc by discriminate. reflexivity.
    + rewrite file_join_ne by discriminate. exists (c :: x). split; [discriminate|reflexivity].
Qed.
Theorem files_in_cache : forall os wj getenv, os <> Windows ->
  InDir (cache_dir os wj getenv) (B "localhost.crt") (cert_file os wj getenv) /\ InDir (cache_dir os wj getenv) (B "localhost.key") (key_file os wj getenv) /\
  exists a, cache_dir os wj getenv = a ++ B "golang-autocert" /\ (a = [] \/ exists a', a = a' ++ B "/").
Proof.
  intros os wj getenv N. destruct (cache_clean os wj getenv N) as (p & _ & E).
  assert (Ne : cache_dir os wj getenv <> []). { destruct (clean_file p cache_base (B "x") plain_base) as (_ & a & Ea & _); [repeat split; try discriminate; vm_compute; intuition discriminate|]. rewrite E, Ea. destruct a; discriminate. }
  assert (G : forall f, plain f -> os_join os wj [cache_dir os wj getenv; f] = cache_dir os wj getenv ++ SLASH :: f).
  { intros f Pf. replace (os_join os wj [cache_dir os wj getenv; f]) with (file_join [cache_dir os wj getenv; f]) by (destruct os; [reflexivity|contradiction|reflexivity]).
    rewrite file_join_ne by exact Ne. rewrite E. apply (clean_file p cache_base f plain_base Pf). }
  split; [|split].
  - split; [apply (G _ plain_crt)|apply plain_crt].
  - split; [apply (G _ plain_key)|apply plain_key].
  - rewrite E. destruct (clean_file p cache_base (B "localhost.key") plain_base plain_key) as (_ & a & Ea & Ha). exists a. split; [exact Ea|exact Ha].
Qed.
(* so the guards of the theorems on runs hold *)
Theorem files_apart : forall os wj getenv, os <> Windows -> let cache := cache_dir os wj getenv in
  cert_file os wj getenv <> key_file os wj getenv /\
  (forall q, on_the_way q cache -> q <> cert_file os wj getenv /\ q <> key_file os wj getenv) /\
  cert_file os wj getenv <> [SLASH] /\ key_file os wj getenv <> [SLASH].
Proof.
  intros os wj getenv N cache. destruct (files_in_cache os wj getenv N) as ([-> _] & [-> _] & _). fold cache.
  assert (L : forall f : bytes, (List.length f > 0)%nat -> cache ++ B "/" ++ f <> [SLASH]). { intros f Hf E. apply (f_equal (@List.length byte)) in E. rewrite !app_length in E. cbn in E. lia. }
  split; [intros E; apply app_inv_head in E; vm_compute in E; discriminate|]. split; [|split; apply L; vm_compute; lia].
  intros q H. assert (Lq : (List.length q <= List.length cache)%nat). { destruct H as [->|[rest ->]]; [lia|]. rewrite app_length. lia. }
  split; intros ->; rewrite !app_length in Lq; cbn in Lq; lia.
Qed.

(* ---------------------------------------------------------------- local addresses *)
Definition stops (rest : bytes) : Prop := match rest with [] => True | b :: _ => dec_digit b = None end.
Definition dval (n : N) (ds : bytes) : N := fold_left (fun n b => match dec_digit b with Some d => (n * 10 + d)%N | None => n end) ds n.
Lemma dtoi_app : forall ds rest n i m c, dtoi ds n i = Some (m, c) -> c = (i + List.length ds)%nat -> stops rest -> dtoi (ds ++ rest) n i = Some (m, c).
Proof.
  induction ds as [|b ds IH]; intros rest n i m c H Hc S.
  - cbn in *. destruct i; [discriminate|]. injection H as <- <-. destruct rest as [|b rest]; [reflexivity|]. cbn in S. cbn. rewrite S. reflexivity.
  - cbn [app dtoi] in *. destruct (dec_digit b) as [d|].
    + destruct (16777215 <=? n * 10 + d)%N; [discriminate|]. apply IH; [exact H| |exact S]. cbn in Hc. lia.
    + destruct i; [discriminate|]. injection H as <- <-. cbn in Hc. lia.
Qed.
Lemma dtoi_inv : forall s n i m c, dtoi s n i = Some (m, c) -> exists ds rest, s = ds ++ rest /\ c = (i + List.length ds)%nat /\ stops rest /\
  m = dval n ds /\ Forall (fun b => dec_digit b <> None) ds /\ c <> 0%nat.
Proof.
  induction s as [|b s IH]; intros n i m c H.
  - cbn in H. destruct i; [discriminate|]. injection H as <- <-. exists [], []. cbn. repeat split; auto; lia.
  - cbn [dtoi] in H. destruct (dec_digit b) as [d|] eqn:Ed.
    + destruct (16777215 <=? n * 10 + d)%N; [discriminate|]. destruct (IH _ _ _ _ H) as (ds & rest & -> & -> & S & -> & F & N).
      exists (b :: ds), rest. split; [reflexivity|]. split; [cbn; lia|]. split; [exact S|]. split; [unfold dval; cbn [fold_left]; rewrite Ed; reflexivity|]. split; [constructor; [congruence|exact F]|exact N].
    + destruct i; [discriminate|]. injection H as <- <-. exists [], (b :: s). cbn. repeat split; auto; lia.
Qed.
Lemma dval_ge : forall ds n, (n <= dval n ds)%N.
Proof.
  induction ds as [|b ds IH]; intros n; [cbn; lia|]. unfold dval in *. cbn [fold_left]. eapply N.le_trans; [|apply IH]. destruct (dec_digit b); lia.
Qed.
Definition tenb : list byte := map byte_of_N [48; 49; 50; 51; 52; 53; 54; 55; 56; 57]%N.
Lemma digit_cases : forall b, dec_digit b <> None -> In b tenb.
Proof. intros b H. destruct b; vm_compute in H |- *; try (exfalso; apply H; reflexivity); tauto. Qed.
Lemma one_digit : forallb (fun a => beqb [a] (itoa_N (dval 0 [a]))) tenb = true.
Proof. vm_compute. reflexivity. Qed.
Lemma two_digits : forallb (fun a => Byte.eqb a x30 || forallb (fun b => beqb [a; b] (itoa_N (dval 0 [a; b]))) tenb) tenb = true.
Proof. vm_compute. reflexivity. Qed.
Lemma three_digits : forallb (fun a => Byte.eqb a x30 || forallb (fun b => forallb (fun c => beqb [a; b; c] (itoa_N (dval 0 [a; b; c]))) tenb) tenb) tenb = true.
Proof. vm_compute. reflexivity. Qed.
Lemma four_digits : forallb (fun a => Byte.eqb a x30 || forallb (fun b => forallb (fun c => forallb (fun d => (255 <? dval 0 [a; b; c; d])%N) tenb) tenb) tenb) tenb = true.
Proof. vm_compute. reflexivity. Qed.
Ltac fa H := rewrite forallb_forall in H.
Lemma canonical : forall ds, Forall (fun b => dec_digit b <> None) ds -> ds <> [] -> (dval 0 ds <= 255)%N -> (List.length ds = 1%nat \/ nth 0 ds x00 <> x30) -> ds = itoa_N (dval 0 ds).
Proof.
  intros ds F N L Z. destruct ds as [|a ds]; [contradiction|]. inversion F as [|? ? Ha F1]; subst. apply digit_cases in Ha.
  destruct ds as [|b ds]; [apply beqb_eq; pose proof one_digit as T; fa T; apply (T a Ha)|].
  destruct Z as [Z|Z]; [cbn in Z; lia|]. cbn in Z. apply beq_neq in Z. inversion F1 as [|? ? Hb F2]; subst. apply digit_cases in Hb.
  destruct ds as [|c ds].
  { pose proof two_digits as T. fa T. specialize (T a Ha). cbv beta in T. rewrite Z in T. cbn [orb] in T. fa T. apply beqb_eq. apply (T b Hb). }
  inversion F2 as [|? ? Hc F3]; subst. apply digit_cases in Hc. destruct ds as [|d ds].
  { pose proof three_digits as T. fa T. specialize (T a Ha). cbv beta in T. rewrite Z in T. cbn [orb] in T. fa T. specialize (T b Hb). cbv beta in T. fa T. apply beqb_eq. apply (T c Hc). }
  inversion F3 as [|? ? Hd F4]; subst. apply digit_cases in Hd. exfalso.
  pose proof four_digits as T. fa T. specialize (T a Ha). cbv beta in T. rewrite Z in T. cbn [orb] in T. fa T. specialize (T b Hb). cbv beta in T. fa T. specialize (T c Hc). cbv beta in T. fa T. specialize (T d Hd). cbv beta in T.
  apply N.ltb_lt in T. change (a :: b :: c :: d :: ds) with ([a; b; c; d] ++ ds) in L. unfold dval in L. rewrite fold_left_app in L. fold (dval 0 [a; b; c; d]) in L. fold (dval (dval 0 [a; b; c; d]) ds) in L.
  pose proof (dval_ge ds (dval 0 [a; b; c; d])). lia.
Qed.
Lemma octets_ok : forallb (fun n => let s := itoa_N (N.of_nat n) in
  match dtoi s 0 0 with Some (m, c) => (m =? N.of_nat n)%N && (c =? List.length s)%nat && negb ((1 <? c)%nat && Byte.eqb (nth 0 s x00) x30) | None => false end) (seq 0 256) = true.
Proof. vm_compute. reflexivity. Qed.
Lemma octet_read : forall s, octet s -> exists n, dtoi s 0 0 = Some (n, List.length s) /\ (255 <? n)%N = false /\ (1 <? List.length s)%nat && Byte.eqb (nth 0 s x00) x30 = false /\ s <> [].
Proof.
  intros s (n & L & ->). pose proof octets_ok as T. fa T. specialize (T (N.to_nat n)). cbv beta zeta in T. rewrite N2Nat.id in T. assert (Hi : In (N.to_nat n) (seq 0 256)) by (apply in_seq; lia). specialize (T Hi).
  exists n. destruct (dtoi (itoa_N n) 0 0) as [[m c]|] eqn:E; [|discriminate]. apply andb_true_iff in T. destruct T as [T T3]. apply andb_true_iff in T. destruct T as [T1 T2].
  apply N.eqb_eq in T1. apply Nat.eqb_eq in T2. apply negb_true_iff in T3. subst m c. split; [reflexivity|]. split; [apply N.ltb_ge; lia|]. split; [exact T3|]. intros Z. rewrite Z in E. discriminate.
Qed.
Lemma nth_app_first : forall (s rest : bytes), s <> [] -> nth 0 (s ++ rest) x00 = nth 0 s x00.
Proof. intros [|c s] rest N; [contradiction|reflexivity]. Qed.
Lemma skipn_all_app : forall (s rest : bytes), skipn (List.length s) (s ++ rest) = rest.
Proof. induction s; intros; cbn; auto. Qed.

(* what is left to read: as many octets, each behind a dot *)
Definition dots (os : list bytes) : bytes := concat (map (fun o => x2e :: o) os).
Definition dotted (first : bool) (os : list bytes) : bytes :=
  match os with o :: os' => (if first then o else x2e :: o) ++ dots os' | [] => [] end.
Lemma dots_stop : forall os, stops (dots os).
Proof. intros [|o os]; [exact I|reflexivity]. Qed.
Lemma read_octet : forall o rest, octet o -> stops rest -> exists n, dtoi (o ++ rest) 0 0 = Some (n, List.length o) /\ (255 <? n)%N = false /\ (1 <? List.length o)%nat && Byte.eqb (nth 0 (o ++ rest) x00) x30 = false.
Proof.
  intros o rest Ho S. destruct (octet_read o Ho) as (n & H1 & H2 & H3 & H4). exists n. split; [apply dtoi_app; [exact H1|reflexivity|exact S]|]. split; [exact H2|]. rewrite nth_app_first by exact H4. exact H3.
Qed.
Lemma octet_written : forall s n c, dtoi s 0 0 = Some (n, c) -> (255 <? n)%N = false -> (1 <? c)%nat && Byte.eqb (nth 0 s x00) x30 = false ->
  exists o, octet o /\ s = o ++ skipn c s /\ c = List.length o.
Proof.
  intros s n c H L Z. destruct (dtoi_inv _ _ _ _ _ H) as (ds & rest & -> & -> & S & -> & F & N). cbn [plus] in *. apply N.ltb_ge in L.
  assert (Nd : ds <> []) by (destruct ds; [cbn in N; lia|discriminate]).
  exists ds. rewrite skipn_all_app. split; [|split; reflexivity]. exists (dval 0 ds). split; [lia|]. apply canonical; auto.
  rewrite nth_app_first in Z by exact Nd. apply andb_false_iff in Z. destruct Z as [Z|Z]; [left; apply Nat.ltb_ge in Z; lia|right; apply beq_neq; exact Z].
Qed.
Lemma ipv4_iff : forall left first s, parse_ipv4 left first s = true <-> exists os, List.length os = left /\ Forall octet os /\ s = dotted first os.
Proof.
  induction left as [|left IH]; intros first s; cbn [parse_ipv4].
  - split.
    + destruct s; [|discriminate]. intros _. exists []. repeat split; auto.
    + intros ([|] & L & _ & ->); [reflexivity|discriminate].
  - split.
    + intros H. destruct (if first then Some s else match s with c :: s' => if Byte.eqb c x2e then Some s' else None | [] => None end) as [s1|] eqn:E; [|discriminate].
      destruct (dtoi s1 0 0) as [[n c]|] eqn:D; [|discriminate]. destruct (255 <? n)%N eqn:L; [discriminate|]. destruct ((1 <? c)%nat && Byte.eqb (nth 0 s1 x00) x30) eqn:Z; [discriminate|].
      destruct (octet_written _ _ _ D L Z) as (o & Ho & Es & Ec). apply IH in H. destruct H as (os & Lo & Fo & Eo). exists (o :: os). split; [cbn; lia|]. split; [constructor; assumption|].
      assert (Hs : s = (if first then o else x2e :: o) ++ skipn c s1).
      { destruct first; [injection E as ->; exact Es|]. destruct s as [|x s']; [discriminate|]. destruct (Byte.eqb x x2e) eqn:Ex; [|discriminate]. injection E as ->. apply beq_eq in Ex. subst x. cbn. f_equal. exact Es. }
      rewrite Hs, Eo. cbn [dotted]. f_equal. destruct os as [|o2 os2]; [reflexivity|]. reflexivity.
    + intros ([|o os] & L & F & ->); [discriminate|]. inversion F as [|? ? F1 F2]; subst. cbn in L. cbn [dotted].
      destruct (read_octet o (dots os) F1 (dots_stop os)) as (n & H1 & H2 & H3). assert (G : parse_ipv4 left false (dots os) = true); [|destruct first; cbn [app]; cbv beta iota; [|change (Byte.eqb x2e x2e) with true; cbv beta iota]; rewrite H1, H2, H3, skipn_all_app; exact G]. apply IH. exists os. split; [lia|]. split; [exact F2|]. destruct os; reflexivity.
Qed.
Lemma quad_iff : forall s, parse_ipv4 4 true s = true <-> DottedQuad s.
Proof.
  intros s. rewrite ipv4_iff. split.
  - intros (os & L & F & ->). destruct os as [|a [|b [|c [|d [|]]]]]; try discriminate. inversion F as [|? ? Fa F1]; subst. inversion F1 as [|? ? Fb F2]; subst. inversion F2 as [|? ? Fc F3]; subst. inversion F3 as [|? ? Fd F4]; subst.
    exists a, b, c, d. repeat (split; [assumption|]). cbn [dotted]. unfold dots. cbn [map concat]. rewrite app_nil_r. reflexivity.
  - intros (a & b & c & d & Ha & Hb & Hc & Hd & ->). exists [a; b; c; d]. split; [reflexivity|]. split; [repeat constructor; assumption|]. cbn [dotted]. unfold dots. cbn [map concat]. rewrite app_nil_r. reflexivity.
Qed.
Lemma strip_host : forall addr host, HostOf addr host -> M_Address.strip_port addr = host.
Proof.
  intros addr host [N H]. unfold M_Address.strip_port.
  assert (C1 : forall h, ~ In x3a h -> cut h x3a = None). { induction h as [|c h IH]; intros Nh; [reflexivity|]. cbn. rewrite IH by (intros K; apply Nh; now right). destruct (Byte.eqb c x3a) eqn:E; [|reflexivity]. apply beq_eq in E. exfalso. apply Nh. now left. }
  assert (C2 : forall h p, ~ In x3a h -> cut (h ++ x3a :: p) x3a = Some (h, p)). { induction h as [|c h IH]; intros p Nh; [reflexivity|]. cbn [app cut]. rewrite IH by (intros K; apply Nh; now right). destruct (Byte.eqb c x3a) eqn:E; [|reflexivity]. apply beq_eq in E. exfalso. apply Nh. now left. }
  destruct H as [->|[port ->]]; [rewrite C1 by exact N; reflexivity|rewrite C2 by exact N; reflexivity].
Qed.
Lemma single_form : forall c l, c <> x73 -> form_of c l -> exists x, l = [x] /\ lower x = c.
Proof. intros c l N [H|[H _]]; [exact H|congruence]. Qed.
Lemma local_name_iff : forall host, equal_fold host (B "localhost") = true \/ equal_fold host (B "localho" ++ [xc5; xbf] ++ B "t") = true <-> LocalName host.
Proof.
  intros host. unfold equal_fold. rewrite !beqb_eq. split.
  - intros [H|H].
    + exists (map (fun x => [x]) host). split; [|clear H; induction host as [|c h IH]; [reflexivity|cbn; now rewrite <- IH]].
      change (map lower (B "localhost")) with (B "localhost") in H. rewrite <- H. clear H.
      induction host as [|c h IH]; [constructor|]. cbn [map]. constructor; [left; eauto|exact IH].
    + change (map lower (B "localho" ++ [xc5; xbf] ++ B "t")) with [x6c; x6f; x63; x61; x6c; x68; x6f; xc5; xbf; x74] in H.
      do 10 (destruct host as [|? host]; [discriminate H|]; cbn [map] in H; injection H as ? H). destruct host; [|discriminate H].
      assert (E6 : b6 = xc5) by (clear - H7; destruct b6; try reflexivity; discriminate).
      assert (E7 : b7 = xbf) by (clear - H8; destruct b7; try reflexivity; discriminate). subst b6 b7.
      exists [[b]; [b0]; [b1]; [b2]; [b3]; [b4]; [b5]; [xc5; xbf]; [b8]]. split; [|reflexivity].
      repeat (constructor; [first [left; eexists; split; [reflexivity|assumption]|right; split; reflexivity]|]). constructor.
  - intros (forms & F & ->). cbn in F.
    repeat match goal with F : Forall2 _ (_ :: _) _ |- _ => inversion F; clear F; subst end.
    match goal with F : Forall2 _ [] _ |- _ => inversion F; subst end.
    repeat match goal with K : form_of ?c _ |- _ => first [apply (single_form c) in K; [destruct K as (? & -> & ?)|discriminate] |
       destruct K as [(? & -> & ?)|[_ ->]]] end.
    + left. cbn. congruence.
    + right. cbn. congruence.
Qed.
Theorem local_iff : forall addr host, HostOf addr host -> is_local (norm_addr addr) = true <-> host = [] \/ LocalName host \/ DottedQuad host.
Proof.
  intros addr host H. pose proof (strip_host _ _ H) as E. unfold is_local, is_localhost, is_ip.
  assert (En : norm_addr addr = match host with [] => B "0.0.0.0" ++ addr | _ => addr end) by (rewrite <- E; reflexivity).
  destruct host as [|c host].
  - assert (E2 : M_Address.strip_port (B "0.0.0.0" ++ addr) = B "0.0.0.0"). { apply strip_host. split; [vm_compute; intuition discriminate|]. destruct H as [_ [->|[p ->]]]; [left; apply app_nil_r|right; exists p; reflexivity]. }
    rewrite En, E2. split; [auto|]. intros _. vm_compute. reflexivity.
  - rewrite En, E. rewrite orb_true_iff, quad_iff, orb_true_iff, local_name_iff. split; [auto|]. intros [K|K]; [discriminate|exact K].
Qed.
