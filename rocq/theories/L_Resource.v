(* Lemmas for C92. *)
From Verif Require Import M_Base M_Status M_Method M_Proto M_KeyValue M_Query M_Request M_Response M_Suit M_Path M_Radix M_Router M_Static M_Resource
  S_Routes S_Router S_Resource L_Base L_Router L_Router2 L_Router3 L_Router4.

Lemma named_call : forall W s m path (h : handler W) ms, NamedAfter s m -> router_call s path h ms = Route m path h ms.
Proof. intros W s m path h ms H. unfold NamedAfter in H. destruct s, m; vm_compute in H; try discriminate H; reflexivity. Qed.
Lemma attached : forall W (c : rcall W) m h ms, Attaches c m h ms -> resource_call c = Some (Route m [] h ms).
Proof. intros W c m h ms H. destruct H as [|s m h ms H]; cbn [resource_call]; [reflexivity|]. rewrite (named_call W s m [] h ms H). reflexivity. Qed.

Lemma prefix_last : forall W (os : list (list nat * rop W)) addr pre n, prefix_below os pre (addr ++ [n]) = prefix_below os pre addr ++ nth n (kids os (pre ++ addr)) [].
Proof.
  intros W os addr. induction addr as [|i addr IH]; intros pre n; cbn [app prefix_below].
  - rewrite !app_nil_r. reflexivity.
  - rewrite IH, <- !app_assoc. reflexivity.
Qed.
Lemma chain_last : forall W (os : list (list nat * rop W)) addr pre n, chain_below os pre (addr ++ [n]) = chain_below os pre addr ++ uses os (pre ++ addr ++ [n]).
Proof.
  intros W os addr. induction addr as [|i addr IH]; intros pre n; cbn [app chain_below].
  - rewrite !app_nil_r. reflexivity.
  - rewrite IH, <- !app_assoc. reflexivity.
Qed.
Lemma kids_app : forall W (os os' : list (list nat * rop W)) addr, kids (os ++ os') addr = kids os addr ++ kids os' addr.
Proof. intros. unfold kids, calls. rewrite filter_app, map_app, flat_map_app. reflexivity. Qed.
Lemma kids_group : forall W addr path (rest : list (list nat * rop W)), kids ((addr, Group path) :: rest) addr = path :: kids rest addr.
Proof.
  intros. change ((addr, Group path) :: rest) with ([(addr, Group path)] ++ rest). rewrite kids_app. f_equal.
  unfold kids, calls. cbn [filter fst snd map flat_map app]. unfold addr_eqb. destruct (list_eq_dec Nat.eq_dec addr addr); [reflexivity|contradiction].
Qed.

Lemma resource_route : forall W (os rest : list (list nat * rop W)) addr path c o m h ms,
  let all := os ++ (addr, resource_new path) :: rest in let res := addr ++ [List.length (kids os addr)] in
  Attaches c m h ms -> resource_call c = Some o -> In (res, o) all ->
  In (normalize (full_prefix all addr ++ path), m, behind (chain all addr ++ uses all res ++ ms) h) (registered all).
Proof.
  intros W os rest addr path c o m h ms all res HA HC HI. rewrite (attached W c m h ms HA) in HC. injection HC as <-.
  unfold registered. apply in_flat_map. exists (res, Route m [] h ms). split; [exact HI|]. cbn [fst snd]. left.
  assert (EP : full_prefix all res = full_prefix all addr ++ path).
  { unfold full_prefix, res. rewrite prefix_last. f_equal. cbn [app]. unfold all. rewrite kids_app. unfold resource_new. rewrite kids_group.
    rewrite app_nth2 by apply Nat.le_refl. rewrite Nat.sub_diag. reflexivity. }
  assert (EC : chain all res = chain all addr ++ uses all res).
  { unfold chain, res. rewrite chain_last. reflexivity. }
  rewrite EP, EC, app_nil_r, <- app_assoc. reflexivity.
Qed.
Lemma resource_prefix : forall W (os rest : list (list nat * rop W)) addr path,
  let all := os ++ (addr, resource_new path) :: rest in let res := addr ++ [List.length (kids os addr)] in
  full_prefix all res = full_prefix all addr ++ path /\ chain all res = chain all addr ++ uses all res.
Proof.
  intros W os rest addr path all res. split.
  - unfold full_prefix, res. rewrite prefix_last. f_equal. cbn [app]. unfold all. rewrite kids_app. unfold resource_new. rewrite kids_group.
    rewrite app_nth2 by apply Nat.le_refl. rewrite Nat.sub_diag. reflexivity.
  - unfold chain, res. rewrite chain_last. reflexivity.
Qed.
Lemma resource_catch : forall W (os rest : list (list nat * rop W)) addr path prefix h ms,
  let all := os ++ (addr, resource_new path) :: rest in let res := addr ++ [List.length (kids os addr)] in
  exists o, resource_call (RcCatch prefix h ms) = Some o /\
    (In (res, o) all -> In (path_join (full_prefix all addr ++ path) prefix, behind (chain all addr ++ uses all res ++ ms) h) (caught all)).
Proof.
  intros W os rest addr path prefix h ms all res. exists (Catch prefix h ms). split; [reflexivity|]. intros HI.
  unfold caught. apply in_flat_map. exists (res, Catch prefix h ms). split; [exact HI|]. cbn [fst snd]. left.
  destruct (resource_prefix W os rest addr path) as [EP EC]. fold all res in EP, EC. rewrite EP, EC, <- app_assoc. reflexivity.
Qed.
Lemma resource_use : forall W (os : list (list nat * rop W)) res ms,
  exists o, resource_call (RcUse ms) = Some o /\ uses (os ++ [(res, o)]) res = uses os res ++ ms.
Proof.
  intros W os res ms. exists (Use ms). split; [reflexivity|]. unfold uses, calls. rewrite filter_app, map_app, flat_map_app. f_equal.
  cbn [filter fst snd map flat_map app]. unfold addr_eqb. destruct (list_eq_dec Nat.eq_dec res res); [cbn; apply app_nil_r|contradiction].
Qed.
