(* The remaining statements of the router's properties. *)
From Coq Require Import Permutation Sorted.
From Verif Require Import M_Base M_Status M_Method M_Proto M_KeyValue M_Query M_Request M_Response M_Suit M_Path M_Radix M_Router S_Routes S_Router
  L_Base L_Path L_Radix L_Router L_Router2 L_Router3 L_Router4 L_Router5 L_Router6 L_RouterEx.

Section Router.
Variable W : Type.
Notation ops := (list (list nat * rop W)).

Theorem one_handler : forall (os : ops) x p m h h', Running os x ->
  In (p, m, h) (registered os) -> In (p, m, h') (registered os) -> h = h'.
Proof.
  intros os x p m h h' HR H1 H2.
  destruct HR as (a & g & routes & sorted & R1 & R2 & _). pose proof (prepared W os a R1) as HP. rewrite R2 in HP. destruct HP as (_ & _ & P3 & _).
  revert P3 H1 H2. generalize (registered os) as l. induction l as [|[[p0 m0] h0] l IH]; [intros _ []|]; intros N [H1|H1] [H2|H2]; cbn [map fst] in N; inversion N as [|? ? N1 N2]; subst.
  - congruence.
  - injection H1 as -> -> ->. exfalso. apply N1. apply (in_map fst) in H2. exact H2.
  - injection H2 as -> -> ->. exfalso. apply N1. apply (in_map fst) in H1. exact H1.
  - apply IH; assumption.
Qed.
Theorem reached_behind : forall (os : ops) x r H, Running os x -> snd (route x r) = ToHandler H ->
  exists addr m p h ms, In (addr, Route m p h ms) os /\ Serves (r_method (arrive x r)) m /\ H = behind (chain os addr ++ ms) h.
Proof.
  intros os x r H HR HT. destruct (reached W os x r H HR HT) as (p & m & H1 & H2). apply in_registered in H1.
  destruct H1 as (addr & p0 & h & ms & H1 & _ & H3). exists addr, m, p0, h, ms. auto.
Qed.
Theorem stops_there : forall ms (stop : handler W) ms' h, behind (ms ++ (fun _ => stop) :: ms') h = behind ms stop.
Proof. intros ms stop ms' h. rewrite (behind_app W). reflexivity. Qed.
Lemma chain_below_snoc : forall (os : ops) addr pre i, chain_below os pre (addr ++ [i]) = chain_below os pre addr ++ uses os (pre ++ addr ++ [i]).
Proof.
  intros os. induction addr as [|j addr IH]; intros pre i; cbn [app chain_below].
  - rewrite !app_nil_r. reflexivity.
  - rewrite IH, <- !app_assoc. reflexivity.
Qed.
Theorem chain_snoc : forall (os : ops) addr i, chain os (addr ++ [i]) = chain os addr ++ uses os (addr ++ [i]).
Proof. intros os addr i. unfold chain. rewrite chain_below_snoc. reflexivity. Qed.
Lemma handler_for_snoc : forall (os : ops) addr o c, handler_for (os ++ [(addr, o)]) c =
  match o with OnErrors h cs => if existsb (N.eqb c) (match cs with [] => [AllErrors] | _ => cs end) then Some h else handler_for os c | _ => handler_for os c end.
Proof. intros os addr o c. unfold handler_for at 1. rewrite fold_left_app. cbn [fold_left snd]. destruct o; reflexivity. Qed.
Theorem last_registered : forall (os : ops) addr h cs c, In c cs -> handler_for (os ++ [(addr, OnErrors h cs)]) c = Some h.
Proof.
  intros os addr h cs c Hi. rewrite handler_for_snoc. destruct cs as [|c0 cs]; [contradiction|].
  replace (existsb (N.eqb c) (c0 :: cs)) with true; [reflexivity|]. symmetry. apply existsb_exists. exists c. split; [exact Hi|apply N.eqb_refl].
Qed.
Theorem last_universal : forall (os : ops) addr h, handler_for (os ++ [(addr, OnErrors h [])]) AllErrors = Some h.
Proof. intros os addr h. rewrite handler_for_snoc. reflexivity. Qed.
Theorem others_irrelevant : forall (os : ops) addr o c,
  (forall h cs, o = OnErrors h cs -> ~ In c cs /\ (cs = [] -> c <> AllErrors)) -> handler_for (os ++ [(addr, o)]) c = handler_for os c.
Proof.
  intros os addr o c H. rewrite handler_for_snoc. destruct o; try reflexivity. destruct (H h codes eq_refl) as [H1 H2].
  destruct (existsb (N.eqb c) _) eqn:E; [|reflexivity]. exfalso. apply existsb_exists in E. destruct E as (c' & E1 & E2). apply N.eqb_eq in E2. subst c'.
  destruct codes as [|c0 cs]; [|contradiction]. destruct E1 as [E1|[]]. apply (H2 eq_refl). symmetry. exact E1.
Qed.
Theorem catcher_longest : forall (os : ops) x w r p h, Running os x -> In (p, h) (caught os) -> Prefix p (r_path r) ->
  exists q hq, In (q, hq) (caught os) /\ Prefix q (r_path r) /\ on_err x w r (EHttp ErrNotFound) = hq w r /\
    (forall p' h', In (p', h') (caught os) -> Prefix p' (r_path r) -> (List.length p' <= List.length q)%nat).
Proof.
  intros os x w r p h HR Hi HP. destruct (running_catchers W os x HR) as [C1 C2]. unfold on_err.
  assert (E : method_eqb (r_method r) TRACE && is_err (EHttp ErrNotFound) ErrMethodNotAllowed = false) by (rewrite andb_comm; reflexivity).
  rewrite E. change (is_err (EHttp ErrNotFound) ErrNotFound) with true. cbn iota.
  assert (HC : forall q hq, In (q, hq) (x_catchers x) <-> In (q, hq) (caught os)).
  { intros q hq. split; apply Permutation_in; [exact C1|apply Permutation_sym; exact C1]. }
  destruct (find_catcher (x_catchers x) (r_path r)) as [h0|] eqn:EF.
  - destruct (find_catcher_some W _ _ _ C2 EF) as (q & Q1 & Q2 & Q3). exists q, h0. split; [apply HC; exact Q1|]. split; [exact Q2|]. split; [reflexivity|].
    intros p' h' H1 H2. apply (Q3 p' h'); [apply HC; exact H1|exact H2].
  - exfalso. rewrite (find_catcher_none W) in EF. apply (EF p h); [apply HC; exact Hi|exact HP].
Qed.
Theorem nothing_caught : forall (os : ops) x w r, Running os x ->
  (forall p h, In (p, h) (caught os) -> ~ Prefix p (r_path r)) ->
  on_err x w r (EHttp ErrNotFound) = HUpdate (set_error (EHttp ErrNotFound)) (error_choice os 404%N w (set_error (EHttp ErrNotFound) r)).
Proof. intros os x w r HR H. apply (errors_handled W os x w r ErrNotFound HR); [intros [_ E]; discriminate|]. intros _. exact H. Qed.
Theorem in_caught : forall (os : ops) p H, In (p, H) (caught os) <->
  exists addr p0 h ms, In (addr, Catch p0 h ms) os /\ p = path_join (full_prefix os addr) p0 /\ H = behind (chain os addr ++ ms) h.
Proof.
  intros os p H. unfold caught. rewrite in_flat_map. split.
  - intros ([addr o] & H1 & H2). cbn [snd fst] in H2. destruct o as [| |p0 h ms| | | |]; try contradiction. destruct H2 as [H2|[]]. injection H2 as <- <-.
    exists addr, p0, h, ms. auto.
  - intros (addr & p0 & h & ms & H1 & -> & ->). exists (addr, Catch p0 h ms). split; [exact H1|]. left. reflexivity.
Qed.
Theorem in_aliases : forall (os : ops) f t, In (f, t) (aliases os) <->
  exists addr f0, In (addr, Alias f0 t) os /\ f = path_join (full_prefix os addr) f0.
Proof.
  intros os f t. unfold aliases. rewrite in_flat_map. split.
  - intros ([addr o] & H1 & H2). cbn [snd fst] in H2. destruct o as [| | | |from to| |]; try contradiction. destruct H2 as [H2|[]]. injection H2 as <- <-.
    exists addr, from. auto.
  - intros (addr & f0 & H1 & ->). exists (addr, Alias f0 t). split; [exact H1|]. left. reflexivity.
Qed.
Theorem catcher_twice : forall (os : ops) addr p h ms h' ms', In (addr, Catch p h ms) os ->
  build (os ++ [(addr, Catch p h' ms')]) new_app = None.
Proof.
  intros os addr p h ms h' ms' Hi. rewrite (build_snoc W). destruct (build os new_app) as [a|] eqn:Ha; [|reflexivity].
  unfold app_op. cbn [fst snd]. destruct (build_inv W os a Ha) as [HI HX]. specialize (HX _ Hi). cbn [fst] in HX.
  destruct (L_Router.sub W (a_root a) addr) as [c|] eqn:Hs; [|contradiction].
  assert (E : op_at addr (Catch p h' ms') (a_root a) = None); [|rewrite E; reflexivity].
  apply (op_at_none W). right. exists c. split; [exact Hs|].
  destruct (HI addr c Hs) as (O1 & O2 & O3 & O4 & O5 & _). destruct c as [pf mu ca mw re ch]. cbn [group_op g_prefix g_catchers] in *.
  assert (K : existsb (fun c0 => beqb (fst c0) (path_join pf p)) ca = true); [|rewrite K; reflexivity].
  apply existsb_exists. exists (path_join pf p, behind ms h). split; [|apply beqb_refl]. rewrite O4, O1.
  apply in_flat_map. exists (Catch p h ms). split; [|left; reflexivity]. unfold calls. apply in_map_iff. exists (addr, Catch p h ms).
  split; [reflexivity|]. apply filter_In. split; [exact Hi|]. apply addr_eqb_refl.
Qed.
Theorem reachable : forall (os : ops) x addr m p h ms r, Running os x -> ~ HasParams os -> x_mutators x = [] ->
  In (addr, Route m p h ms) os -> normalize (r_path r) = normalize (full_prefix os addr ++ p) -> r_method r = m ->
  snd (route x r) = ToHandler (behind (chain os addr ++ ms) h).
Proof.
  intros os x addr m p h ms r HR Hs Hm Hi Hp Hr. destruct (static_routing W os x r HR Hs) as [S1 _].
  assert (Ea : arrive x r = set_path (normalize (r_path r)) r) by (unfold arrive; rewrite Hm; reflexivity).
  assert (HIn : In (r_path (arrive x r), m, behind (chain os addr ++ ms) h) (registered os)).
  { apply in_registered. exists addr, p, h, ms. rewrite Ea. cbn [set_path r_path]. auto. }
  destruct S1 as (A1 & _); [exists m, (behind (chain os addr ++ ms) h); exact HIn|]. apply A1. rewrite Ea at 2. cbn [set_path r_method]. rewrite Hr. exact HIn.
Qed.
Lemma group_exists_below : forall (os : ops) root, Inv W os root -> forall addr pre c, L_Router.sub W root pre = Some c ->
  (L_Router.sub W c addr <> None <-> exists_below W os pre addr).
Proof.
  intros os root [HI HX]. induction addr as [|i addr IH]; intros pre c Hc; cbn [L_Router.sub exists_below]; [split; [intros; exact I|discriminate]|].
  destruct (HI pre c Hc) as (_ & _ & O3 & _). rewrite <- O3. destruct (nth_error (g_children c) i) as [d|] eqn:E.
  - rewrite (IH (pre ++ [i]) d).
    + split; [|tauto]. intros H. split; [|exact H]. apply nth_error_Some. congruence.
    + rewrite (sub_app W), Hc. cbn [L_Router.sub]. rewrite E. reflexivity.
  - apply nth_error_None in E. split; [congruence|]. intros [H _]. lia.
Qed.
Theorem route_call_refused : forall (os : ops) a addr m p h ms, build os new_app = Some a ->
  (build (os ++ [(addr, Route m p h ms)]) new_app = None <->
     ~ GroupExists os addr \/
     (exists m' p' h' ms', In (addr, Route m' p' h' ms') os /\ m' = m /\ normalize (full_prefix os addr ++ p') = normalize (full_prefix os addr ++ p)) \/
     (exists e, tparse (normalize (full_prefix os addr ++ p)) = inl e)).
Proof.
  intros os a addr m p h ms Ha. rewrite (route_refused W os a addr m p h ms Ha).
  pose proof (group_exists_below os (a_root a) (build_inv W os a Ha) addr [] (a_root a) eq_refl) as HG. unfold GroupExists.
  destruct (L_Router.sub W (a_root a) addr) as [c|]; split; intros [H|H]; try (right; exact H).
  - discriminate.
  - exfalso. apply H, HG. discriminate.
  - left. intros HE. apply HG in HE. congruence.
  - left. reflexivity.
Qed.
End Router.

(* ---- witnesses ---- *)
Definition two_routes : list (list nat * rop (list nat)) :=
  [([], Route GET (B "/users") (say 1%N) []); ([], Route GET (B "/users/x") (say 2%N) []); ([], Route GET (B "/pages/{id}") (say 3%N) [])].
Definition reversed_start (os : list (list nat * rop (list nat))) : option (runtime (list nat)) :=
  match build os new_app with
  | Some a =>
      match prepare (a_root a) with
      | Some g => initialize g (wrap_errs (a_errs a) (g_mws (a_root a))) (rev (rg_routes (g_reg g))) (longest_first _ (g_catchers g))
      | None => None
      end
  | None => None
  end.
Lemma reversed_running : forall os x, reversed_start os = Some x -> Running os x.
Proof.
  intros os x H. unfold reversed_start in H. destruct (build os new_app) as [a|] eqn:E1; [|discriminate]. destruct (prepare (a_root a)) as [g|] eqn:E2; [|discriminate].
  exists a, g, (rev (rg_routes (g_reg g))), (longest_first _ (g_catchers g)). repeat (split; [assumption|]).
  split; [exists (rev (rg_routes (g_reg g))); split; [apply Permutation_rev|clear; induction (rev (rg_routes (g_reg g))); constructor; auto]|].
  split; [apply longest_first_perm|]. split; [apply longest_first_sorted|exact H].
Qed.
Theorem order_matters : exists (os : list (list nat * rop (list nat))) x x' r,
  Running os x /\ Running os x' /\ r_path r = B "/users/x" /\
  snd (route x r) = ToError ErrNotFound /\
  (exists h, snd (route x (get (B "/users"))) = ToHandler h /\ h ([], []) r = HRet (Some (set_code 1%N new_response)) ([], [])) /\
  (exists h, snd (route x' (get (B "/users"))) = ToHandler h /\ h ([], []) r = HRet (Some (set_code 2%N new_response)) ([], [])).
Proof.
  exists two_routes. eexists. eexists. exists (get (B "/users/x")).
  split; [apply reversed_running; vm_compute; reflexivity|]. split; [apply start_running; vm_compute; reflexivity|]. split; [reflexivity|].
  split; [vm_compute; reflexivity|]. split; eexists; (split; [vm_compute; reflexivity|vm_compute; reflexivity]).
Qed.
Theorem names_clash : exists (os : list (list nat * rop (list nat))), (exists a, build os new_app = Some a) /\ NoDup (map fst (registered os)) /\ forall x, ~ Running os x.
Proof.
  set (os := [([], Route GET (B "/users/{id}") (say 1%N) []); ([], Route GET (B "/users/{name}/posts") (say 2%N) [])] : list (list nat * rop (list nat))).
  exists os. assert (Ha : exists a, build os new_app = Some a) by (eexists; vm_compute; reflexivity). split; [exact Ha|].
  split; [change (map fst (registered os)) with [(B "/users/{id}", GET); (B "/users/{name}/posts", GET)]; repeat constructor; cbn [In]; intuition discriminate|].
  intros x HR. destruct Ha as (a & Ha). destruct (proj1 (starts (list nat) os a Ha) (ex_intro _ x HR)) as [_ HC]. apply HC.
  exists [SStatic (B "users")], (B "id"), (B "name"), [], [SStatic (B "posts")], (B "/users/{id}"), GET, (say 1%N), (B "/users/{name}/posts"), GET, (say 2%N).
  split; [discriminate|]. split; [left; reflexivity|]. split; [reflexivity|]. split; [right; left; reflexivity|reflexivity].
Qed.
