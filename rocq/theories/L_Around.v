(* Lemmas: a router with one more middleware, used before all others. *)
From Coq Require Import Permutation Sorted.
From Verif Require Import M_Base M_Status M_Method M_Proto M_KeyValue M_Request M_Client M_Body M_Response M_Suit M_Path M_Radix M_Router
  M_Middleware M_Bundled S_Routes S_Router S_Recovered S_Around L_Base L_Radix L_Router L_Recovered.

(* ---- trees with other payloads ---- *)
Section Map.
Variables P Q : Type.
Variable phi : P -> Q.
Fixpoint map_node (n : node P) : node Q :=
  let 'Node o a m x p w b := n in
  Node o (map (fun e => (fst e, map_node (snd e))) a) (map (fun e => (fst e, map_node (snd e))) m) (option_map map_node x) (option_map phi p) w b.
Definition map_entries (l : list (bytes * node P)) : list (bytes * node Q) := map (fun e => (fst e, map_node (snd e))) l.
Lemma get_map : forall l key, entry_get (map_entries l) key = option_map map_node (entry_get l key).
Proof. induction l as [|[k n] l IH]; intros key; [reflexivity|]. cbn [map_entries map fst snd entry_get]. destruct (beqb k key); [reflexivity|apply IH]. Qed.
Lemma change_map : forall l key n, entry_change (map_entries l) key (map_node n) = map_entries (entry_change l key n).
Proof. induction l as [|[k n0] l IH]; intros key n; [reflexivity|]. cbn [map_entries map fst snd entry_change]. destruct (beqb k key); [reflexivity|]. cbn [map_entries map fst snd]. f_equal. apply IH. Qed.
Lemma set_map : forall l key n, map_set (map_entries l) key (map_node n) = map_entries (map_set l key n).
Proof.
  intros l key n. unfold map_set. rewrite get_map. destruct (entry_get l key); cbn [option_map]; [apply change_map|]. unfold map_entries. rewrite map_app. reflexivity.
Qed.
Lemma statics_map : forall n key, statics_get (map_node n) key = option_map map_node (statics_get n key).
Proof. intros [o a m x p w b] key. unfold statics_get. cbn [map_node n_over n_map n_arr]. destruct o; apply get_map. Qed.
Lemma add_map : forall n key c, statics_add (map_node n) key (map_node c) = map_node (statics_add n key c).
Proof.
  intros [o a m x p w b] key c. unfold statics_add. cbn [map_node n_over n_map n_arr]. fold (map_entries a). fold (map_entries m).
  assert (F : forall l acc, fold_left (fun m e => map_set m (fst e) (snd e)) (map_entries l) (map_entries acc) = map_entries (fold_left (fun m e => map_set m (fst e) (snd e)) l acc)).
  { induction l as [|[k n0] l IH]; intros acc; [reflexivity|]. cbn [map_entries map fst snd fold_left]. rewrite set_map. apply IH. }
  destruct o; [unfold set_statics; cbn [map_node n_next n_payload n_wildcard n_is_wildcard]; rewrite set_map; reflexivity|].
  replace (List.length (map_entries a)) with (List.length a) by (unfold map_entries; symmetry; apply map_length). destruct (Nat.ltb _ _).
  - unfold set_statics. cbn [map_node n_next n_payload n_wildcard n_is_wildcard]. generalize (F a []). change (map_entries []) with (@nil (bytes * node Q)). intros ->. rewrite set_map. reflexivity.
  - unfold set_statics. cbn [map_node n_next n_payload n_wildcard n_is_wildcard]. unfold map_entries. rewrite map_app. reflexivity.
Qed.
Lemma statics_change_map : forall n key c, statics_change (map_node n) key (map_node c) = map_node (statics_change n key c).
Proof.
  intros [o a m x p w b] key c. unfold statics_change. cbn [map_node n_over n_map n_arr]. fold (map_entries a). fold (map_entries m).
  destruct o; unfold set_statics; cbn [map_node n_next n_payload n_wildcard n_is_wildcard]; rewrite change_map; reflexivity.
Qed.
Lemma insert_map : forall segs p n, insert segs (phi p) (map_node n) = option_map map_node (insert segs p n).
Proof.
  induction segs as [|[s|name] segs IH]; intros p n.
  - destruct n. reflexivity.
  - cbn [insert]. rewrite statics_map. destruct (statics_get n s) as [c|]; cbn [option_map].
    + rewrite IH. destruct (insert segs p c); cbn [option_map]; [|reflexivity]. f_equal. apply statics_change_map.
    + change (@new_node Q None) with (map_node (new_node None)). rewrite IH. destruct (insert segs p (new_node None)); cbn [option_map]; [|reflexivity]. f_equal. apply add_map.
  - cbn [insert]. assert (E : n_is_wildcard (map_node n) = n_is_wildcard n /\ n_wildcard (map_node n) = n_wildcard n /\ n_next (map_node n) = option_map map_node (n_next n)) by (destruct n; auto).
    destruct E as (E1 & E2 & E3). rewrite E1, E2, E3. destruct (n_is_wildcard n && negb (beqb name (n_wildcard n))); [reflexivity|].
    assert (F : match option_map map_node (n_next n) with Some y => y | None => new_node None end = map_node (match n_next n with Some y => y | None => new_node None end)) by (destruct (n_next n); reflexivity).
    rewrite F, IH. destruct (insert segs p _); cbn [option_map]; [|reflexivity]. destruct n. reflexivity.
Qed.
Definition map_res (x : mres P) : mres Q := match x with MFound p ps => MFound (phi p) ps | MNone ps => MNone ps | MPanic => MPanic | MStuck => MStuck end.
Lemma segment_map : forall ps s n, process_segment ps s (map_node n) = (option_map (option_map map_node) (fst (process_segment ps s n)), snd (process_segment ps s n)).
Proof.
  intros ps s n. unfold process_segment. rewrite statics_map. destruct (statics_get n s) as [ch|]; cbn [option_map]; [reflexivity|].
  assert (E : n_is_wildcard (map_node n) = n_is_wildcard n /\ n_wildcard (map_node n) = n_wildcard n /\ n_next (map_node n) = option_map map_node (n_next n)) by (destruct n; auto).
  destruct E as (E1 & E2 & E3). rewrite E1, E2, E3. destruct (negb (n_is_wildcard n) || beqb s []); reflexivity.
Qed.
Lemma loop_map : forall fuel n path ps, match_loop fuel (map_node n) path ps = map_res (match_loop fuel n path ps).
Proof.
  induction fuel as [|f IH]; intros n path ps; (destruct path as [|c path]; [cbn [match_loop]; destruct n as [o a m x p w b]; cbn [map_node n_payload]; destruct p; reflexivity|]).
  - reflexivity.
  - cbn [match_loop]. match goal with |- context [let '(s, rest) := ?X in _] => destruct X as [s rest] end.
    rewrite segment_map. destruct (process_segment ps s n) as [[[ch|]|] ps']; cbn [fst snd option_map]; [apply IH|reflexivity|reflexivity].
Qed.
Lemma match_map : forall n path ps, match_path (map_node n) path ps = map_res (match_path n path ps).
Proof. intros n [|c rest] ps; [reflexivity|]. cbn [match_path]. destruct (Byte.eqb c SLASH); [apply loop_map|reflexivity]. Qed.
End Map.

Arguments map_node {P Q}. Arguments map_res {P Q}.

Section Around.
Variable W : Type.
Variable f : middleware W.
Notation application := (application W). Notation router := (router W). Notation mtable := (mtable W).
Definition fmt (t : mtable) : mtable := map (fun mh => (fst mh, f (snd mh))) t.
Definition froutes (l : list (bytes * mtable)) : list (bytes * mtable) := map (fun e => (fst e, fmt (snd e))) l.
Definition fcatchers (l : list (catcher W)) : list (catcher W) := map (fun c => (fst c, f (snd c))) l.
Definition ferrs (t : errtable W) : errtable W := map (fun e => (fst e, f (snd e))) t.
Definition preg (g : router) : router := let 'Router p mu c mws reg ch := g in Router p mu c (f :: mws) reg ch.
Definition preapp (a : application) : application := App (preg (a_root a)) (a_errs a).

(* ---- building ---- *)
Lemma op_pre : forall addr o g, op_at addr o (preg g) = option_map preg (op_at addr o g).
Proof.
  intros [|i addr] o [p mu c mws reg ch].
  - cbn [op_at preg group_op]. destruct o as [m path h ms|ms|q h ms|mu0|from to|q|h codes]; cbn [option_map]; try reflexivity.
    + destruct (reg_add (p ++ path) m (compose h ms) reg); reflexivity.
    + match goal with |- context [existsb ?x c] => destruct (existsb x c) end; reflexivity.
  - cbn [op_at preg]. destruct (nth_error ch i) as [c0|]; [|reflexivity]. destruct (op_at addr o c0); reflexivity.
Qed.
Lemma build_pre : forall os a, build os (preapp a) = option_map preapp (build os a).
Proof.
  induction os as [|[addr o] os IH]; intros a; [reflexivity|].
  cbn [build]. unfold app_op at 1 2. cbn [fst snd]. cbn [preapp a_root]. rewrite op_pre. destruct (op_at addr o (a_root a)) as [g|]; cbn [option_map]; [|reflexivity].
  cbn [a_errs]. destruct o; apply (IH (App g _)).
Qed.
Lemma build_use : forall os, build (([], Use [f]) :: os) new_app = option_map preapp (build os new_app).
Proof. intros os. rewrite <- build_pre. reflexivity. Qed.

(* ---- preparing ---- *)
Lemma reg_twice : forall mws (r : registrar W), reg_apply (fun h => compose h (f :: mws)) r = reg_apply f (reg_apply (fun h => compose h mws) r).
Proof.
  intros mws [rs d]. unfold reg_apply. cbn [rg_routes rg_dynamic]. f_equal. rewrite map_map. apply map_ext. intros [p t]. cbn [fst snd]. f_equal. rewrite map_map. reflexivity.
Qed.
Lemma prepare_pre : forall g g1, prepare g = Some g1 -> exists g2, prepare (preg g) = Some g2 /\
  g_mutators g2 = g_mutators g1 /\ g_catchers g2 = fcatchers (g_catchers g1) /\ g_reg g2 = reg_apply f (g_reg g1).
Proof.
  intros [p mu c mws reg ch] g1. cbn [prepare preg].
  match goal with |- context [fold_left ?s ?l ?a] => destruct (fold_left s l a) as [[[[reg' mus'] cats'] ch']|] end; [|discriminate].
  intros H. injection H as <-. eexists. split; [reflexivity|]. cbn [g_mutators g_catchers g_reg]. split; [reflexivity|]. split; [|apply reg_twice].
  unfold fcatchers. rewrite map_map. reflexivity.
Qed.
Lemma errs_pre : forall t g, wrap_errs t (g_mws (preg g)) = ferrs (wrap_errs t (g_mws g)).
Proof. intros t [p mu c mws reg ch]. unfold wrap_errs, ferrs. rewrite map_map. reflexivity. Qed.

(* ---- orders ---- *)
Lemma order_pre : forall l l', AnyOrder l l' -> AnyOrder (froutes l) (froutes l').
Proof.
  intros l l' (l2 & P & F). exists (froutes l2). split; [apply Permutation_map; exact P|].
  induction F as [|[p t] [p' t'] l2 l' [E Q] F IH] in P |- *; [constructor|]. clear P. constructor.
  - cbn [fst snd] in *. split; [exact E|apply Permutation_map; exact Q].
  - clear E Q. assert (G : forall a b, Forall2 (fun e e' => fst e = fst e' /\ Permutation (snd e) (snd e')) a b ->
      Forall2 (fun e e' : bytes * mtable => fst e = fst e' /\ Permutation (snd e) (snd e')) (froutes a) (froutes b)).
    { intros a b. induction 1 as [|x y a b [H1 H2] H IHa]; constructor; [|exact IHa]. split; [exact H1|apply Permutation_map; exact H2]. }
    apply G. exact F.
Qed.
Lemma sorted_pre : forall l, Sorted Longer l -> Sorted Longer (fcatchers l).
Proof.
  induction 1 as [|a l S IH H]; [constructor|]. constructor; [exact IH|]. destruct H as [|b l H]; constructor. exact H.
Qed.

(* ---- endpoints ---- *)
Definition ep_rel (e e' : endpoint W) : Prop := ep_allow e' = ep_allow e /\ forall m, ep_methods e' m = option_map f (ep_methods e m).
Lemma tree_rel : forall t, ep_rel (tree_endpoint t) (tree_endpoint (fmt t)).
Proof.
  intros t. split.
  - unfold tree_endpoint, fmt. cbn [ep_allow]. rewrite map_map. reflexivity.
  - unfold tree_endpoint. cbn [ep_methods].
    assert (G : forall t g g', (forall m, g' m = option_map f (g m)) -> forall m,
      fold_left (fun f mh => mset f (fst mh) (snd mh)) (fmt t) g' m = option_map f (fold_left (fun f mh => mset f (fst mh) (snd mh)) t g m)).
    { clear t. induction t as [|[m0 h] t IH]; intros g g' H m; [apply H|]. cbn [fmt map fold_left fst snd]. apply IH. intros k. unfold mset. destruct (method_eqb k m0); [reflexivity|apply H]. }
    apply G. reflexivity.
Qed.
Lemma allow_rel : forall g g' : method -> option (handler W), (forall m, g' m = option_map f (g m)) -> allow_string g' = allow_string g.
Proof. intros g g' H. unfold allow_string. do 2 f_equal. apply map_ext. intros m. rewrite H. destruct (g m); reflexivity. Qed.
Definition list_rel := Forall2 (fun a b : bytes * endpoint W => fst a = fst b /\ ep_rel (snd a) (snd b)).
Lemma get_rel : forall l l', list_rel l l' -> forall p, match ep_get l p, ep_get l' p with Some e, Some e' => ep_rel e e' | None, None => True | _, _ => False end.
Proof.
  induction 1 as [|[k e] [k' e'] l l' [E R] H IH]; intros p; [exact I|]. cbn [fst snd] in *. subst k'. cbn [ep_get]. destruct (beqb k p); [exact R|apply IH].
Qed.
Lemma set_rel : forall l l' p e e', list_rel l l' -> ep_rel e e' -> list_rel (ep_set l p e) (ep_set l' p e').
Proof.
  intros l l' p e e' H R. induction H as [|[k e0] [k' e0'] l l' [E R0] H IH]; [constructor; [split; [reflexivity|exact R]|constructor]|].
  cbn [fst snd] in *. subst k'. cbn [ep_set]. destruct (beqb k p); constructor; try (split; [reflexivity|assumption]); assumption.
Qed.
Lemma add_rel : forall l l' p m h, list_rel l l' -> list_rel (rmap_add l p m h) (rmap_add l' p m (f h)).
Proof.
  intros l l' p m h H. unfold rmap_add. apply set_rel; [exact H|].
  pose proof (get_rel l l' H p) as G.
  assert (E : forall k, (match ep_get l' p with Some e => ep_methods e | None => no_methods end) k = option_map f ((match ep_get l p with Some e => ep_methods e | None => no_methods end) k)).
  { intros k. destruct (ep_get l p), (ep_get l' p); try contradiction; [apply G|reflexivity]. }
  assert (E2 : forall k, mset (match ep_get l' p with Some e => ep_methods e | None => no_methods end) m (f h) k = option_map f (mset (match ep_get l p with Some e => ep_methods e | None => no_methods end) m h k)).
  { intros k. unfold mset. destruct (method_eqb k m); [reflexivity|apply E]. }
  split; [apply allow_rel; exact E2|exact E2].
Qed.
Lemma as_map_rel : forall routes, list_rel (as_map routes) (as_map (froutes routes)).
Proof.
  intros routes. unfold as_map.
  assert (G : forall p t l l', list_rel l l' -> list_rel (fold_left (fun l mh => rmap_add l p (fst mh) (snd mh)) t l) (fold_left (fun l mh => rmap_add l p (fst mh) (snd mh)) (fmt t) l')).
  { intros p. induction t as [|[m h] t IH]; intros l l' H; [exact H|]. cbn [fmt map fold_left fst snd]. apply IH. apply add_rel. exact H. }
  assert (K : forall rs l l', list_rel l l' -> list_rel (fold_left (fun l e => fold_left (fun l mh => rmap_add l (fst e) (fst mh) (snd mh)) (snd e) l) rs l)
    (fold_left (fun l e => fold_left (fun l mh => rmap_add l (fst e) (fst mh) (snd mh)) (snd e) l) (froutes rs) l')).
  { induction rs as [|[p t] rs IH]; intros l l' H; [exact H|]. cbn [froutes map fold_left fst snd]. apply IH. apply G. exact H. }
  apply K. constructor.
Qed.

(* ---- trees ---- *)
Fixpoint as_tables (routes : list (bytes * mtable)) (n : node mtable) : option (node mtable) :=
  match routes with
  | [] => Some n
  | (p, t) :: routes' =>
      match tparse p with
      | inl _ => None
      | inr segs => match insert segs t n with Some n' => as_tables routes' n' | None => None end
      end
  end.
Lemma as_tree_tables : forall routes n, as_tree routes (map_node tree_endpoint n) = option_map (map_node tree_endpoint) (as_tables routes n).
Proof.
  induction routes as [|[p t] routes IH]; intros n; [reflexivity|]. cbn [as_tree as_tables]. destruct (tparse p) as [|segs]; [reflexivity|].
  rewrite insert_map. destruct (insert segs t n); cbn [option_map]; [apply IH|reflexivity].
Qed.
Lemma as_tables_pre : forall routes n, as_tables (froutes routes) (map_node fmt n) = option_map (map_node fmt) (as_tables routes n).
Proof.
  induction routes as [|[p t] routes IH]; intros n; [reflexivity|]. cbn [froutes map as_tables fst snd]. destruct (tparse p) as [|segs]; [reflexivity|].
  rewrite insert_map. destruct (insert segs t n); cbn [option_map]; [apply IH|reflexivity].
Qed.

(* ---- running ---- *)
Lemma endpoint_rel : forall e e' r, ep_rel e e' -> fst (to_endpoint e' r) = fst (to_endpoint e r) /\
  snd (to_endpoint e' r) = match snd (to_endpoint e r) with ToHandler h => ToHandler (f h) | t => t end.
Proof.
  intros e e' r [A M]. unfold to_endpoint. rewrite A. set (r1 := set_allowed _ r).
  assert (G : get_handler (r_method r1) (ep_methods e') = option_map f (get_handler (r_method r1) (ep_methods e))).
  { unfold get_handler. rewrite (M (r_method r1)), (M GET). destruct (ep_methods e (r_method r1)), (r_method r1); reflexivity. }
  rewrite G. destruct (get_handler _ (ep_methods e)); cbn [option_map fst snd]; auto.
Qed.
Lemma catcher_pre : forall l path, find_catcher (fcatchers l) path = option_map f (find_catcher l path).
Proof. induction l as [|[p h] l IH]; intros path; [reflexivity|]. cbn [fcatchers map find_catcher fst snd]. destruct (has_prefix path p); [reflexivity|apply IH]. Qed.
Lemma et_pre : forall t c, et_get (ferrs t) c = option_map f (et_get t c).
Proof. induction t as [|[k h] t IH]; intros c; [reflexivity|]. cbn [ferrs map et_get fst snd]. destruct (k =? c)%N; [reflexivity|apply IH]. Qed.
Lemma error_pre : forall t c, error_handler (ferrs t) c = option_map f (error_handler t c).
Proof. intros t c. unfold error_handler. rewrite !et_pre. destruct (et_get t c); reflexivity. Qed.

Theorem running_around : forall os x, Running os x -> exists x', Running (([], Use [f]) :: os) x' /\ Around f x x'.
Proof.
  intros os x (a & g & routes & sorted & Hb & Hp & Ho & Hs & Hl & Hi).
  destruct (prepare_pre _ _ Hp) as (g2 & Hp2 & E1 & E2 & E3).
  assert (Rt : forall x', Running (([], Use [f]) :: os) x' \/ True) by auto. clear Rt.
  assert (C : forall x', initialize g2 (wrap_errs (a_errs a) (g_mws (preg (a_root a)))) (froutes routes) (fcatchers sorted) = Some x' -> Running (([], Use [f]) :: os) x').
  { intros x' H. exists (preapp a), g2, (froutes routes), (fcatchers sorted). split; [rewrite build_use, Hb; reflexivity|]. split; [exact Hp2|].
    split; [rewrite E3; unfold reg_apply; cbn [rg_routes]; apply (order_pre _ _ Ho)|].
    split; [rewrite E2; apply Permutation_map; exact Hs|]. split; [apply sorted_pre; exact Hl|exact H]. }
  revert Hi C. unfold initialize. rewrite E3, E1. unfold reg_apply at 1. cbn [rg_dynamic]. rewrite errs_pre.
  destruct (rg_dynamic (g_reg g)).
  - intros Hi C. change new_tree with (map_node tree_endpoint (new_node (Some ([] : mtable)))) in Hi. rewrite as_tree_tables in Hi.
    assert (T : as_tree (froutes routes) new_tree = option_map (map_node tree_endpoint) (option_map (map_node fmt) (as_tables routes (new_node (Some ([] : mtable)))))).
    { change new_tree with (map_node tree_endpoint (new_node (Some ([] : mtable)))). rewrite as_tree_tables. f_equal. rewrite <- as_tables_pre. reflexivity. }
    rewrite T in C. destruct (as_tables routes _) as [n|]; cbn [option_map] in *; [|discriminate]. injection Hi as <-.
    eexists. split; [apply C; reflexivity|]. constructor; cbn [x_mutators x_catchers x_errs]; [reflexivity| | |apply catcher_pre|apply error_pre].
    + intros r. unfold route, arrive. cbn [x_table x_mutators]. rewrite !match_map. destruct (match_path n _ _); cbn [map_res]; try reflexivity. apply endpoint_rel. apply tree_rel.
    + intros r. unfold route, arrive. cbn [x_table x_mutators]. rewrite !match_map. destruct (match_path n _ _); cbn [map_res]; try reflexivity. apply endpoint_rel. apply tree_rel.
  - intros Hi C. injection Hi as <-. eexists. split; [apply C; reflexivity|]. pose proof (as_map_rel routes) as M.
    constructor; cbn [x_mutators x_catchers x_errs]; [reflexivity| | |apply catcher_pre|apply error_pre].
    + intros r. unfold route, arrive. cbn [x_table x_mutators]. match goal with |- context [ep_get _ ?p] => pose proof (get_rel _ _ M p) as G; destruct (ep_get (as_map routes) p), (ep_get (as_map (froutes routes)) p) end; try contradiction; [apply endpoint_rel; exact G|reflexivity].
    + intros r. unfold route, arrive. cbn [x_table x_mutators]. match goal with |- context [ep_get _ ?p] => pose proof (get_rel _ _ M p) as G; destruct (ep_get (as_map routes) p), (ep_get (as_map (froutes routes)) p) end; try contradiction; [apply endpoint_rel; exact G|reflexivity].
Qed.
End Around.
