(* Properties C38, C91: file serving in groups; OPTIONS in any application. *)
From Verif Require Import M_Base M_Status M_Method M_KeyValue M_Request M_Response M_Suit M_Path M_Radix M_Router M_Static
  S_Routes S_Router S_Static S_Static2 S_Serve L_Router L_Router4 L_Router5 L_RouterEx L_Serve L_Serve2 L_Static2 L_Frail.

(* C38, exactly: registered for [prefix] in a group with the prefix [g], what is opened is the root
   and the request without its first bytes, as many as [prefix] has; that is the file meant if and
   only if there is no group *)
Theorem C38_group_exact : forall prefix root pp, new_path prefix root = Some pp ->
  exists P W, WithEnd prefix P /\ WithEnd root W /\ forall b g rest,
    (forall file, snd (static_step pp b (g ++ P ++ rest)) = SOpen file <-> file = W ++ skipn (List.length P) (g ++ P ++ rest) /\ NoDots file) /\
    (snd (static_step pp b (g ++ P ++ rest)) = SOpen (W ++ rest) <-> g = [] /\ NoDots (W ++ rest)).
Proof.
  intros prefix root pp H. destruct (static_exact prefix root pp H) as (P & W & E1 & E2 & E3). exists P, W. split; [exact E1|]. split; [exact E2|]. intros b g rest.
  assert (K : forall file, snd (static_step pp b (g ++ P ++ rest)) = SOpen file <-> file = W ++ skipn (List.length P) (g ++ P ++ rest) /\ NoDots file).
  { intros file. destruct (E3 b (g ++ P ++ rest)) as (A & _). rewrite A. unfold NameOf. rewrite firstn_all2.
    - split; [intros (_ & C); exact C|intros C; split; [rewrite !app_length; lia|exact C]].
    - rewrite !app_length, skipn_length, !app_length. lia. }
  split; [exact K|]. rewrite K. split; intros [C D]; (split; [|exact D]).
  - apply app_inv_head in C. apply (f_equal (@List.length byte)) in C. rewrite skipn_length, !app_length in C. destruct g as [|c g]; [reflexivity|]. exfalso. unfold bytes in *. cbn [List.length] in C. lia.
  - subst g. cbn [app]. rewrite skipn_app, skipn_all2, Nat.sub_diag by lia. reflexivity.
Qed.
Print Assumptions C38_group_exact.
Example C38_group_case : exists pp, new_path (B "/static") (B "/srv") = Some pp /\
  snd (static_step pp no_buf (B "/static/a.txt")) = SOpen (B "/srv/a.txt") /\
  snd (static_step pp no_buf (B "/v1/static/a.txt")) = SOpen (B "/srv/ic/a.txt").
Proof. eexists. split; [vm_compute; reflexivity|]. split; vm_compute; reflexivity. Qed.

(* C91, exactly: every application, with parameters or without, and every OPTIONS request.  It goes
   to the handler registered for OPTIONS where it arrives; if there is none, to the 405 error with
   the methods that are registered there; elsewhere to the 404 error; with parameters and an empty
   path the router panics (C30_panic_exact) *)
Theorem C91_exact : forall W (os : list (list nat * rop W)) x r, Running os x -> r_method (arrive x r) = OPTIONS ->
  (HasParams os /\ r_path (arrive x r) = [] /\ snd (route x r) = ToPanic) \/
  (Nowhere os (arrive x r) /\ snd (route x r) = ToError ErrNotFound) \/
  exists R r1 allow, Place os (arrive x r) R r1 /\ AllowText (fun m => exists h, R m h) allow /\ fst (route x r) = set_allowed allow r1 /\
    ((exists h, R OPTIONS h /\ snd (route x r) = ToHandler h) \/
     ((forall h, ~ R OPTIONS h) /\ snd (route x r) = ToError ErrMethodNotAllowed)).
Proof.
  intros W os x r HR Hm. assert (D : (HasParams os /\ r_path (arrive x r) = []) \/ Sorted_out W os x r).
  { destruct (running_inv W os x HR) as (routes & _ & _ & _ & _ & _ & _ & [[Hs _]|[Hd _]]); [right; apply static_sorted; assumption|].
    destruct (r_path (arrive x r)) as [|c s] eqn:E; [left; auto|]. right. apply dynamic_sorted; [exact HR|exact Hd|rewrite E; discriminate]. }
  destruct D as [[Hd E]|[(R & r1 & HP & (A1 & A2 & A3 & (a & A4 & A5)))|(H1 & _ & ps & _ & H3)]].
  - left. split; [exact Hd|]. split; [exact E|]. apply (route_panics W os x r HR). auto.
  - right. right. exists R, r1, a. split; [exact HP|]. split; [exact A5|]. split; [exact A4|].
    pose proof (place_method W os _ R r1 HP) as Hm1. rewrite Hm in Hm1. rewrite Hm1 in *.
    destruct (place_has W os _ R r1 OPTIONS HP) as [(h & Hh)|Hn]; [left; exists h; auto|]. right. split; [exact Hn|]. apply A3; [exact Hn|discriminate].
  - right. left. split; [exact H1|]. rewrite H3. reflexivity.
Qed.
Print Assumptions C91_exact.
(* ... so OPTIONS is supported only by what the application registers for it *)
Theorem C91_own : forall W (os : list (list nat * rop W)) x r h, Running os x -> r_method (arrive x r) = OPTIONS ->
  snd (route x r) = ToHandler h -> exists p, In (p, OPTIONS, h) (registered os).
Proof.
  intros W os x r h HR Hm E. destruct (C91_exact W os x r HR Hm) as [(_ & _ & K)|[(_ & K)|(R & r1 & a & HP & _ & _ & [(h' & Hh & K)|(_ & K)])]]; rewrite E in K; try discriminate.
  injection K as <-. destruct HP as [_ _|p t parts ps _ _ _ _ _ _|_ _ _]; [eauto|eauto|destruct Hh].
Qed.
Print Assumptions C91_own.
Example C91_exact_case : let os := [([], Route GET (B "/users/{id}") (say 1%N) []); ([], Route OPTIONS (B "/all/{id}") (say 2%N) [])] in
  let ask p := set_method OPTIONS (get p) in
  HasParams os /\ exists x, Running os x /\
  snd (route x (ask (B "/users/7"))) = ToError ErrMethodNotAllowed /\ env_allowed (r_env (fst (route x (ask (B "/users/7"))))) = B "GET" /\
  snd (route x (ask (B "/all/7"))) = ToHandler (say 2%N) /\ snd (route x (ask (B "*"))) = ToError ErrNotFound.
Proof.
  cbv zeta. split.
  - exists (B "/users/{id}"), GET, (say 1%N). eexists. exists (B "id"). split; [left; reflexivity|]. split; [vm_compute; reflexivity|]. cbn. auto.
  - eexists. split; [apply start_running; vm_compute; reflexivity|]. vm_compute. auto.
Qed.
