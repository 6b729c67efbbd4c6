(* Lemmas about virtual hosts. *)
From Verif Require Import M_Base M_Status M_KeyValue M_Request M_Response M_Suit M_Virtual S_KeyValue S_Static S_Virtual L_Base L_KeyValue.

Lemma beqb_true : forall a b, beqb a b = true <-> a = b.
Proof. intros a b. split; [apply beqb_eq|intros ->; apply beqb_refl]. Qed.

(* ---- names ---- *)
Lemma suffix_rev : forall s back port, Suffix s (rev back ++ port) <-> exists a, rev back ++ port = a ++ s.
Proof. reflexivity. Qed.
Definition no_mark (p : bytes) : Prop := ~ In x2e p /\ ~ In COLON p.
(* the loop removes a default port and nothing else *)
Lemma norm_loop_spec : forall back port m, no_mark port -> m = rev back ++ port ->
  let n := norm_loop m back port in
  m = n ++ B ":80" \/ m = n ++ B ":443" \/ (m = n /\ ~ Suffix (B ":80") m /\ ~ Suffix (B ":443") m).
Proof.
  assert (K : forall p a c s, no_mark p -> no_mark s -> (c = x2e \/ c = COLON) -> forall d, d ++ COLON :: s = a ++ c :: p -> p = s /\ c = COLON /\ d = a).
  { intros p a c s [Hp1 Hp2] [Hs1 Hs2] Hc d H.
    assert (Hn : forall (x y : bytes) u v z w, ~ In u y -> ~ In v y -> ~ In u w -> ~ In v w -> forall g h, (g = u \/ g = v) -> (h = u \/ h = v) -> x ++ g :: y = z ++ h :: w -> y = w /\ g = h /\ x = z).
    { clear. intros x y u v z w H1 H2 H3 H4 g h Hg Hh H. revert z H. induction x as [|b x IH]; intros z H.
      - destruct z as [|b z]; [injection H as -> ->; auto|]. injection H as -> H. exfalso. assert (Hi : In h y) by (rewrite H; apply in_or_app; right; left; reflexivity).
        destruct Hh as [ -> | -> ]; contradiction.
      - destruct z as [|b' z].
        + injection H as -> H. exfalso. assert (Hi : In g w) by (rewrite <- H; apply in_or_app; right; left; reflexivity). destruct Hg as [ -> | -> ]; contradiction.
        + injection H as -> H. destruct (IH z H) as (E1 & E2 & E3). subst. auto. }
    destruct (Hn d s x2e COLON a p Hs1 Hs2 Hp1 Hp2 COLON c (or_intror eq_refl) Hc H) as (E1 & E2 & E3). auto. }
  assert (N80 : no_mark (B "80")) by (split; intros H; vm_compute in H; intuition discriminate).
  assert (N443 : no_mark (B "443")) by (split; intros H; vm_compute in H; intuition discriminate).
  induction back as [|c back IH]; intros port m Hp Hm; cbn [norm_loop].
  - right. right. split; [reflexivity|]. cbn [rev app] in Hm. subst m.
    split; intros (a & E); destruct Hp as [_ Hp]; apply Hp; rewrite E; apply in_or_app; right; left; reflexivity.
  - cbn [rev] in Hm. rewrite <- app_assoc in Hm. cbn [app] in Hm.
    destruct (Byte.eqb c x2e) eqn:E1.
    { apply beq_eq in E1. right. right. split; [reflexivity|]. split; intros (a & E); rewrite Hm in E; symmetry in E.
      - destruct (K port (rev back) c (B "80") Hp N80 (or_introl E1) a E) as (_ & Ec & _). rewrite E1 in Ec. discriminate.
      - destruct (K port (rev back) c (B "443") Hp N443 (or_introl E1) a E) as (_ & Ec & _). rewrite E1 in Ec. discriminate. }
    destruct (Byte.eqb c COLON) eqn:E2.
    { apply beq_eq in E2. destruct (beqb port (B "80")) eqn:P1; cbn [orb].
      { apply beqb_true in P1. left. rewrite Hm, E2, P1. reflexivity. }
      destruct (beqb port (B "443")) eqn:P2.
      { apply beqb_true in P2. right. left. rewrite Hm, E2, P2. reflexivity. }
      right. right. split; [reflexivity|]. split; intros (a & E); rewrite Hm in E; symmetry in E.
      - destruct (K port (rev back) c (B "80") Hp N80 (or_intror E2) a E) as (Ep & _). apply beqb_true in Ep. congruence.
      - destruct (K port (rev back) c (B "443") Hp N443 (or_intror E2) a E) as (Ep & _). apply beqb_true in Ep. congruence. }
    apply IH; [|exact Hm]. apply beq_neq in E1, E2. destruct Hp as [H1 H2]. split; intros [E|E]; congruence || contradiction.
Qed.
Theorem norm_host_normal : forall h, Normal h (norm_host h).
Proof.
  intros h. unfold norm_host, Normal. destruct (has_prefix h (B "www.")) eqn:E.
  - apply has_prefix_iff in E. destruct E as (m & E). exists m. split; [left; exact E|].
    assert (Es : skipn 4 h = m) by (rewrite E; reflexivity). rewrite Es. apply norm_loop_spec; [split; intros []|]. rewrite rev_involutive, app_nil_r. reflexivity.
  - exists h. split.
    + right. split; [reflexivity|]. intros (m & Em). assert (has_prefix h (B "www.") = true) by (apply has_prefix_iff; exists m; exact Em). congruence.
    + apply norm_loop_spec; [split; intros []|]. rewrite rev_involutive, app_nil_r. reflexivity.
Qed.
Lemma app_tail_inj : forall (a b s t : bytes), a ++ s = b ++ t -> List.length s = List.length t -> a = b /\ s = t.
Proof.
  intros a b s t H L. assert (La : List.length a = List.length b) by (apply (f_equal (@List.length byte)) in H; rewrite !app_length in H; lia).
  revert b H La. induction a as [|x a IH]; intros [|y b] H La; cbn in La; try lia; [auto|]. injection H as -> H. destruct (IH b H) as [-> ->]; [lia|]. auto.
Qed.
Lemma ports_differ : forall a b, a ++ B ":80" = b ++ B ":443" -> False.
Proof.
  intros a b H. assert (E : (a ++ B ":8") ++ B "0" = (b ++ B ":44") ++ B "3") by (rewrite <- !app_assoc; exact H).
  apply app_tail_inj in E; [|reflexivity]. destruct E as [_ E]. vm_compute in E. discriminate.
Qed.
Theorem normal_unique : forall h n n', Normal h n -> Normal h n' -> n = n'.
Proof.
  intros h n n' (m & Hm & Hn) (m' & Hm' & Hn').
  assert (E : m = m').
  { destruct Hm as [E|[E N]]; destruct Hm' as [E'|[E' N']].
    - rewrite E in E'. apply app_inv_head in E'. exact E'.
    - exfalso. apply N'. exists m. exact E.
    - exfalso. apply N. exists m'. exact E'.
    - congruence. }
  subst m'. clear Hm Hm'.
  destruct Hn as [E|[E|(E & N1 & N2)]]; destruct Hn' as [E'|[E'|(E' & N1' & N2')]].
  - rewrite E in E'. apply app_inv_tail in E'. exact E'.
  - exfalso. rewrite E in E'. exact (ports_differ _ _ E').
  - exfalso. apply N1'. exists n. exact E.
  - exfalso. rewrite E in E'. symmetry in E'. exact (ports_differ _ _ E').
  - rewrite E in E'. apply app_inv_tail in E'. exact E'.
  - exfalso. apply N2'. exists n. exact E.
  - exfalso. apply N1. exists n'. exact E'.
  - exfalso. apply N2. exists n'. exact E'.
  - congruence.
Qed.
Lemma canonical_normal : forall h, Canonical h -> Normal h h.
Proof. intros h (H1 & H2 & H3). exists h. split; [right; auto|]. right. right. auto. Qed.
Lemma any_host : forall n, beqb (trim_port n) (B "0.0.0.0") = true <-> AnyHost n.
Proof.
  intros n. rewrite beqb_true. unfold trim_port, AnyHost. destruct (cut n COLON) as [[a b]|] eqn:E.
  - apply cut_some in E. destruct E as [E Hn]. split.
    + intros ->. right. exists b. exact E.
    + intros [H|(p & H)].
      * exfalso. assert (Hi : In COLON n) by (rewrite E; apply in_or_app; right; left; reflexivity). rewrite H in Hi. vm_compute in Hi. intuition discriminate.
      * assert (C : cut n COLON = Some (B "0.0.0.0", p)) by (rewrite H; apply cut_app; intros Hi; vm_compute in Hi; intuition discriminate).
        assert (C' : cut n COLON = Some (a, b)) by (rewrite E; apply cut_app; exact Hn). rewrite C in C'. apply (f_equal (fun o => match o with Some (x, _) => x | None => [] end)) in C'. symmetry. exact C'.
  - apply cut_none in E. split; [auto|]. intros [H|(p & H)]; [exact H|]. exfalso. apply E. rewrite H. apply in_or_app. right. left. reflexivity.
Qed.

(* ---- the table ---- *)
Section Table.
Variable W : Type.
Implicit Types (os : list (vop W)) (x : router W).
Lemma build_snoc : forall os o, v_build (os ++ [o]) = v_op (v_build os) o.
Proof. intros os o. unfold v_build. rewrite fold_left_app. reflexivity. Qed.
Lemma op_cases : forall (o : vop W) (v : vrouter W),
  (exists x, SetsDefault o x /\ (forall x', SetsDefault o x' -> x' = x) /\ (forall n x', ~ AddsHost o n x') /\ v_op v o = VRouter (v_hosts v) (Some x)) \/
  (exists n x, AddsHost o n x /\ (forall n' x', AddsHost o n' x' -> n' = n /\ x' = x) /\ (forall x', ~ SetsDefault o x') /\ v_op v o = VRouter (v_hosts v ++ [(n, x)]) (v_default v)).
Proof.
  intros o v. destruct o as [h x|x]; cbn [v_op].
  - unfold v_host. pose proof (norm_host_normal h) as HN. destruct (beqb (trim_port (norm_host h)) (B "0.0.0.0")) eqn:E.
    + apply any_host in E. left. exists x. split; [right; exists h, (norm_host h); auto|].
      split; [intros x' [H|(h' & n' & H & _)]; [discriminate|injection H as _ ->; reflexivity]|]. split; [|reflexivity].
      intros n x' (h' & H & Hn & Ha). injection H as <- <-. rewrite (normal_unique h n (norm_host h) Hn HN) in Ha. contradiction.
    + assert (Na : ~ AnyHost (norm_host h)) by (intros H; apply any_host in H; congruence).
      right. exists (norm_host h), x. split; [exists h; auto|]. split.
      { intros n' x' (h' & H & Hn & _). injection H as <- <-. split; [exact (normal_unique h n' (norm_host h) Hn HN)|reflexivity]. }
      split; [|reflexivity]. intros x' [H|(h' & n' & H & Hn & Ha)]; [discriminate|]. injection H as <- <-. rewrite (normal_unique h n' (norm_host h) Hn HN) in Ha. contradiction.
  - left. exists x. split; [left; reflexivity|]. split; [intros x' [H|(h' & n' & H & _)]; [injection H as ->; reflexivity|discriminate]|].
    split; [|reflexivity]. intros n x' (h & H & _). discriminate.
Qed.
Theorem default_spec : forall os, match v_default (v_build os) with Some x => DefaultIs os x | None => NoDefault os end.
Proof.
  intros os. induction os as [|o os IH] using rev_ind; [intros o x []|]. rewrite build_snoc.
  destruct (op_cases o (v_build os)) as [(x & H1 & H2 & H3 & ->)|(n & x & H1 & H2 & H3 & ->)]; cbn [v_default].
  - exists os, o, []. split; [reflexivity|]. split; [exact H1|]. intros o' x' [].
  - destruct (v_default (v_build os)) as [d|].
    + destruct IH as (a & o' & b & -> & Hs & Hn). exists a, o', (b ++ [o]). split; [rewrite <- app_assoc; reflexivity|]. split; [exact Hs|].
      intros o2 x2 Hi. apply in_app_or in Hi. destruct Hi as [Hi|[<-|[]]]; [exact (Hn o2 x2 Hi)|exact (H3 x2)].
    + intros o2 x2 Hi. apply in_app_or in Hi. destruct Hi as [Hi|[<-|[]]]; [exact (IH o2 x2 Hi)|exact (H3 x2)].
Qed.
Lemma find_app : forall hs hs' host, v_find (hs ++ hs') host = match v_find hs host with Some x => Some x | None => @v_find W hs' host end.
Proof. induction hs as [|[d y] hs IH]; intros hs' host; [reflexivity|]. cbn [app v_find]. destruct (equal_fold d host); auto. Qed.
Theorem hosts_spec : forall os host, match v_find (v_hosts (v_build os)) host with Some x => HostIs os host x | None => NoHost os host end.
Proof.
  intros os host. induction os as [|o os IH] using rev_ind; [intros o n x []|]. rewrite build_snoc.
  destruct (op_cases o (v_build os)) as [(x & H1 & H2 & H3 & ->)|(n & x & H1 & H2 & H3 & ->)]; cbn [v_hosts].
  - destruct (v_find (v_hosts (v_build os)) host) as [y|].
    + destruct IH as (a & o' & n & b & -> & Hs & Hk & Hn). exists a, o', n, (b ++ [o]). split; [rewrite <- app_assoc; reflexivity|auto].
    + intros o2 n2 x2 Hi Ha. apply in_app_or in Hi. destruct Hi as [Hi|[<-|[]]]; [exact (IH o2 n2 x2 Hi Ha)|exfalso; exact (H3 n2 x2 Ha)].
  - rewrite find_app. destruct (v_find (v_hosts (v_build os)) host) as [y|].
    + destruct IH as (a & o' & m & b & -> & Hs & Hk & Hn). exists a, o', m, (b ++ [o]). split; [rewrite <- app_assoc; reflexivity|auto].
    + cbn [v_find]. destruct (equal_fold n host) eqn:E.
      * exists os, o, n, []. split; [reflexivity|]. split; [exact H1|]. split; [apply same_key_fold; rewrite equal_fold_sym; exact E|]. exact IH.
      * intros o2 n2 x2 Hi Ha. apply in_app_or in Hi. destruct Hi as [Hi|[<-|[]]]; [exact (IH o2 n2 x2 Hi Ha)|].
        destruct (H2 n2 x2 Ha) as [-> ->]. intros Hk. apply same_key_fold in Hk. rewrite equal_fold_sym in Hk. congruence.
Qed.
Lemma default_unique : forall os x y, DefaultIs os x -> DefaultIs os y -> x = y.
Proof.
  intros os. induction os as [|o os IH] using rev_ind; intros x y Hx Hy.
  - destruct Hx as (a & o & b & H & _). destruct a; discriminate.
  - assert (K : forall z, DefaultIs (os ++ [o]) z -> SetsDefault o z \/ (DefaultIs os z /\ forall x', ~ SetsDefault o x')).
    { intros z (a & o' & b & E & Hs & Hn). destruct b as [|b0 b] using rev_ind.
      - left. apply app_inj_tail in E. destruct E as [_ <-]. exact Hs.
      - clear IHb. right. rewrite app_comm_cons, app_assoc in E. apply app_inj_tail in E. destruct E as [E <-].
        split; [|intros x'; apply Hn; apply in_or_app; right; left; reflexivity]. exists a, o', b. split; [exact E|]. split; [exact Hs|]. intros o2 x2 Hi. apply Hn. apply in_or_app. left. exact Hi. }
    destruct (K x Hx) as [Sx|[Dx Nx]]; destruct (K y Hy) as [Sy|[Dy Ny]].
    + destruct (op_cases o (VRouter [] None)) as [(d & _ & H2 & _)|(n & d & _ & _ & H3 & _)]; [rewrite (H2 x Sx), (H2 y Sy); reflexivity|exfalso; exact (H3 x Sx)].
    + exfalso. exact (Ny x Sx).
    + exfalso. exact (Nx y Sy).
    + exact (IH x y Dx Dy).
Qed.
Lemma default_none : forall os x, DefaultIs os x -> ~ NoDefault os.
Proof. intros os x (a & o & b & -> & Hs & _) H. apply (H o x); [apply in_or_app; right; left; reflexivity|exact Hs]. Qed.
Lemma host_unique : forall os host x y, HostIs os host x -> HostIs os host y -> x = y.
Proof.
  intros os host. induction os as [|o os IH]; intros x y Hx Hy.
  - destruct Hx as (a & o & n & b & H & _). destruct a; discriminate.
  - assert (K : forall z, HostIs (o :: os) host z -> (exists n, AddsHost o n z /\ same_key n host) \/ (HostIs os host z /\ forall n x', AddsHost o n x' -> ~ same_key n host)).
    { intros z (a & o' & n & b & E & Hs & Hk & Hn). destruct a as [|a0 a].
      - left. injection E as -> _. exists n. auto.
      - right. injection E as <- E. split; [|intros n' x'; apply Hn; left; reflexivity]. exists a, o', n, b. split; [exact E|]. split; [exact Hs|]. split; [exact Hk|].
        intros o2 n2 x2 Hi. apply Hn. right. exact Hi. }
    destruct (K x Hx) as [(n & Ax & Kx)|[Dx Nx]]; destruct (K y Hy) as [(n' & Ay & Ky)|[Dy Ny]].
    + destruct (op_cases o (VRouter [] None)) as [(d & _ & _ & H3 & _)|(m & d & _ & H2 & _)]; [exfalso; exact (H3 n x Ax)|].
      destruct (H2 n x Ax) as [_ ->]. destruct (H2 n' y Ay) as [_ ->]. reflexivity.
    + exfalso. exact (Ny n x Ax Kx).
    + exfalso. exact (Nx n' y Ay Ky).
    + exact (IH x y Dx Dy).
Qed.
Lemma host_none : forall os host x, HostIs os host x -> ~ NoHost os host.
Proof. intros os host x (a & o & n & b & -> & Hs & Hk & _) H. apply (H o n x); [apply in_or_app; right; left; reflexivity|exact Hs|exact Hk]. Qed.

(* ---- requests ---- *)
Lemma get_router_spec : forall (v : vrouter W) r, get_router v r =
  match hosts_of r with
  | [] => (v_default v, 400%N)
  | [host] => match v_find (v_hosts v) host with Some x => (Some x, 0%N) | None => (v_default v, 421%N) end
  | _ => (None, 400%N)
  end.
Proof.
  intros v r. unfold get_router, hosts_of, kv_values_of. cbn [snd]. rewrite pairs_values_spec. cbn [app].
  destruct (all_values (kv_pairs (r_headers r)) (B "host")) as [|a [|b l]]; reflexivity.
Qed.
Lemma looked_up_unseen : Unseen looked_up.
Proof. intros r. unfold looked_up, kv_values_of. cbn [fst]. eexists. reflexivity. Qed.
(* the router that gets the request, or the code of the refusal *)
Inductive Chosen os r : option (router W) -> code -> Prop :=
| Ch_several : forall a b l, hosts_of r = a :: b :: l -> Chosen os r None 400%N
| Ch_missing : hosts_of r = [] -> NoDefault os -> Chosen os r None 400%N
| Ch_missing_default : forall x c, hosts_of r = [] -> DefaultIs os x -> Chosen os r (Some x) c
| Ch_host : forall h x c, hosts_of r = [h] -> HostIs os h x -> Chosen os r (Some x) c
| Ch_unknown : forall h, hosts_of r = [h] -> NoHost os h -> NoDefault os -> Chosen os r None 421%N
| Ch_unknown_default : forall h x c, hosts_of r = [h] -> NoHost os h -> DefaultIs os x -> Chosen os r (Some x) c.
Theorem chosen : forall os r, Chosen os r (fst (get_router (v_build os) r)) (snd (get_router (v_build os) r)).
Proof.
  intros os r. rewrite get_router_spec. pose proof (default_spec os) as HD. destruct (hosts_of r) as [|h [|h' l]] eqn:E; cbn [fst snd].
  - destruct (v_default (v_build os)) as [x|]; [apply Ch_missing_default; auto|apply Ch_missing; auto].
  - pose proof (hosts_spec os h) as HH. destruct (v_find (v_hosts (v_build os)) h) as [x|]; cbn [fst snd]; [eapply Ch_host; eauto|].
    destruct (v_default (v_build os)) as [x|]; [eapply Ch_unknown_default; eauto|eapply Ch_unknown; eauto].
  - eapply Ch_several. exact E.
Qed.
Theorem virtual_request : forall os w r,
  match fst (get_router (v_build os) r) with
  | Some x => GivenTo x w r (v_request (v_build os) w r)
  | None => Refused (snd (get_router (v_build os) r)) w (v_request (v_build os) w r)
  end.
Proof.
  intros os w r. unfold v_request. destruct (get_router (v_build os) r) as [[x|] c]; cbn [fst snd]; exists looked_up; (split; [exact looked_up_unseen|reflexivity]).
Qed.
Theorem virtual_error : forall os w r e,
  match fst (get_router (v_build os) r) with
  | Some x => ErrorGivenTo x w r e (v_error (v_build os) w r e)
  | None => Refused (snd (get_router (v_build os) r)) w (v_error (v_build os) w r e)
  end.
Proof.
  intros os w r e. unfold v_error. destruct (get_router (v_build os) r) as [[x|] c]; cbn [fst snd]; exists looked_up; (split; [exact looked_up_unseen|reflexivity]).
Qed.
Theorem to_host : forall os w r h x, hosts_of r = [h] -> HostIs os h x -> GivenTo x w r (v_request (v_build os) w r).
Proof.
  intros os w r h x Hr Hx. pose proof (virtual_request os w r) as H. pose proof (chosen os r) as C. rewrite get_router_spec, Hr in *.
  pose proof (hosts_spec os h) as HH. destruct (v_find (v_hosts (v_build os)) h) as [y|].
  - rewrite (host_unique os h x y Hx HH). exact H.
  - exfalso. exact (host_none os h x Hx HH).
Qed.
Theorem to_host_error : forall os w r e h x, hosts_of r = [h] -> HostIs os h x -> ErrorGivenTo x w r e (v_error (v_build os) w r e).
Proof.
  intros os w r e h x Hr Hx. pose proof (virtual_error os w r e) as H. rewrite get_router_spec, Hr in *.
  pose proof (hosts_spec os h) as HH. destruct (v_find (v_hosts (v_build os)) h) as [y|].
  - rewrite (host_unique os h x y Hx HH). exact H.
  - exfalso. exact (host_none os h x Hx HH).
Qed.
Theorem to_default : forall os w r x, (hosts_of r = [] \/ exists h, hosts_of r = [h] /\ NoHost os h) -> DefaultIs os x ->
  GivenTo x w r (v_request (v_build os) w r).
Proof.
  intros os w r x Hr Hx. pose proof (virtual_request os w r) as H. rewrite get_router_spec in H. pose proof (default_spec os) as HD.
  assert (E : v_default (v_build os) = Some x).
  { destruct (v_default (v_build os)) as [y|]; [rewrite (default_unique os x y Hx HD); reflexivity|exfalso; exact (default_none os x Hx HD)]. }
  destruct Hr as [Hr|(h & Hr & Hn)]; rewrite Hr in H.
  - cbn [fst snd] in H. rewrite E in H. exact H.
  - pose proof (hosts_spec os h) as HH. destruct (v_find (v_hosts (v_build os)) h) as [y|]; [exfalso; exact (host_none os h y HH Hn)|]. cbn [fst snd] in H. rewrite E in H. exact H.
Qed.
Theorem to_default_error : forall os w r e x, (hosts_of r = [] \/ exists h, hosts_of r = [h] /\ NoHost os h) -> DefaultIs os x ->
  ErrorGivenTo x w r e (v_error (v_build os) w r e).
Proof.
  intros os w r e x Hr Hx. pose proof (virtual_error os w r e) as H. rewrite get_router_spec in H. pose proof (default_spec os) as HD.
  assert (E : v_default (v_build os) = Some x).
  { destruct (v_default (v_build os)) as [y|]; [rewrite (default_unique os x y Hx HD); reflexivity|exfalso; exact (default_none os x Hx HD)]. }
  destruct Hr as [Hr|(h & Hr & Hn)]; rewrite Hr in H.
  - cbn [fst snd] in H. rewrite E in H. exact H.
  - pose proof (hosts_spec os h) as HH. destruct (v_find (v_hosts (v_build os)) h) as [y|]; [exfalso; exact (host_none os h y HH Hn)|]. cbn [fst snd] in H. rewrite E in H. exact H.
Qed.
Theorem refused : forall os w r, (forall a b l, hosts_of r = a :: b :: l -> Refused 400%N w (v_request (v_build os) w r)) /\
  (hosts_of r = [] -> NoDefault os -> Refused 400%N w (v_request (v_build os) w r)) /\
  (forall h, hosts_of r = [h] -> NoHost os h -> NoDefault os -> Refused 421%N w (v_request (v_build os) w r)).
Proof.
  intros os w r. pose proof (virtual_request os w r) as H. rewrite get_router_spec in H. pose proof (default_spec os) as HD. repeat split.
  - intros a b l Hr. rewrite Hr in H. exact H.
  - intros Hr Hn. rewrite Hr in H. cbn [fst snd] in H. destruct (v_default (v_build os)) as [y|]; [exfalso; exact (default_none os y HD Hn)|exact H].
  - intros h Hr Hh Hn. rewrite Hr in H. pose proof (hosts_spec os h) as HH. destruct (v_find (v_hosts (v_build os)) h) as [y|]; [exfalso; exact (host_none os h y HH Hh)|].
    cbn [fst snd] in H. destruct (v_default (v_build os)) as [y|]; [exfalso; exact (default_none os y HD Hn)|exact H].
Qed.
(* a canonical host that no earlier call has taken *)
Theorem canonical_host : forall os1 os2 h x, Canonical h -> ~ AnyHost h ->
  (forall h' x' n, In (VHost h' x') os1 -> Normal h' n -> ~ same_key n h) -> HostIs (os1 ++ VHost h x :: os2) h x.
Proof.
  intros os1 os2 h x Hc Ha Hn. exists os1, (VHost h x), h, os2. split; [reflexivity|]. split; [exists h; split; [reflexivity|]; split; [exact (canonical_normal h Hc)|exact Ha]|].
  split; [reflexivity|]. intros o' n' x' Hi (h' & E & HN & _). subst o'. exact (Hn h' x' n' Hi HN).
Qed.
End Table.
(* a host with something to remove is not reached under its own name *)
Theorem shortened_host : forall W h (x : router W) w r, ~ Canonical h -> ~ AnyHost (norm_host h) -> hosts_of r = [h] ->
  Refused 421%N w (v_request (v_build [VHost h x]) w r).
Proof.
  intros W h x w r Hc Ha Hr. apply (proj2 (proj2 (refused W [VHost h x] w r)) h Hr).
  - intros o n x' [<-|[]] (h' & E & HN & _). injection E as <- <-. intros Hk. apply Hc. unfold same_key in Hk. apply (f_equal (@List.length byte)) in Hk. rewrite !map_length in Hk.
    destruct HN as (m & Hm & Hn). assert (Lm : (List.length m <= List.length h)%nat) by (destruct Hm as [->|[-> _]]; [rewrite app_length; lia|lia]).
    assert (Ln : (List.length n <= List.length m)%nat) by (destruct Hn as [->|[->|[-> _]]]; [rewrite app_length; lia..|lia]).
    destruct Hm as [E|[E Nw]]; [rewrite E, app_length in Hk; cbn in Hk; rewrite E, app_length in Lm; cbn in Lm; lia|].
    subst m. destruct Hn as [E|[E|(E & N1 & N2)]].
    + rewrite E, app_length in Hk. cbn in Hk. lia.
    + rewrite E, app_length in Hk. cbn in Hk. lia.
    + split; [exact Nw|]. split; [exact N1|exact N2].
  - intros o x' [<-|[]] [H|(h' & n & H & HN & HA)]; [discriminate|]. injection H as <- <-. rewrite (normal_unique h n (norm_host h) HN (norm_host_normal h)) in HA. contradiction.
Qed.
