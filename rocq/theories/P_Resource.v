(* Properties C91 and C92: OPTIONS, the shorthands of the router and its resources. *)
From Coq Require Import Permutation Sorted.
From Verif Require Import M_Base M_Status M_Method M_Proto M_KeyValue M_Query M_Request M_Response M_Suit M_Path M_Radix M_Router M_Static M_Resource
  S_Routes S_Router S_Resource L_Base L_Path L_Radix L_Router L_Router2 L_Router3 L_Router4 L_Router5 L_Router6 L_RouterEx L_Router7 L_Resource.

(* ------------------------------------------------------------------------------------ *)
(* C91: "OPTIONS (including server-wide ones)" are not supported by default: a server-wide
   OPTIONS request is answered with 404, ... *)
Theorem C91_refuted : exists (os : list (list nat * rop (list nat))) x r, Running os x /\ In (B "/ab", GET, say 1%N) (registered os) /\
  r_method r = OPTIONS /\ r_path r = B "*" /\ run os r = Some (404%N, [], [], []).
Proof.
  exists [([], Route GET (B "/ab") (say 1%N) [])]. eexists. exists (set_method OPTIONS (get (B "*"))).
  split; [apply start_running; vm_compute; reflexivity|]. split; [left; reflexivity|]. split; [reflexivity|]. split; [reflexivity|]. vm_compute. reflexivity.
Qed.
Print Assumptions C91_refuted.
(* ... and an OPTIONS request for a resource with 405 *)
Theorem C91_path_refuted : exists (os : list (list nat * rop (list nat))) x r, Running os x /\ In (B "/ab", GET, say 1%N) (registered os) /\
  r_method r = OPTIONS /\ r_path r = B "/ab" /\ run os r = Some (405%N, [], B "GET", []).
Proof.
  exists [([], Route GET (B "/ab") (say 1%N) [])]. eexists. exists (set_method OPTIONS (get (B "/ab"))).
  split; [apply start_running; vm_compute; reflexivity|]. split; [left; reflexivity|]. split; [reflexivity|]. split; [reflexivity|]. vm_compute. reflexivity.
Qed.
Print Assumptions C91_path_refuted.

(* C91, exactly: for all applications: no application can serve "*": a request whose path does
   not begin with a slash (and is not empty) goes to the 404 error, whatever is registered. *)
Theorem C91_serverwide_partial : forall W (os : list (list nat * rop W)) x r c p, Running os x ->
  r_path (arrive x r) = c :: p -> c <> x2f -> route x r = (arrive x r, ToError ErrNotFound).
Proof.
  intros W os x r c p HR HP Hc. destruct (running_inv W os x HR) as (routes & R1 & R2 & R3 & R4 & _ & _ & [[Hs Ht]|[Hd (n & Ht & Hn)]]).
  - destruct (static_routing W os x r HR Hs) as [_ S]. apply S. intros m h HI. destruct (R4 _ HI) as [t Et]. cbn [fst] in Et.
    rewrite HP in Et. unfold tparse in Et. destruct (Byte.eqb c SLASH) eqn:E; [apply beq_eq in E; contradiction|discriminate Et].
  - unfold route. rewrite Ht, HP. cbn [match_path]. destruct (Byte.eqb c SLASH) eqn:E; [apply beq_eq in E; contradiction|]. destruct (arrive x r) as [a1 a2 a3 a4 a5 a6 a7 a8 a9 a10 a11 a12 a13 a14]; reflexivity.
Qed.
Print Assumptions C91_serverwide_partial.
(* C91: without parameters in the routes, an OPTIONS request at a registered path without a
   handler of its own for OPTIONS goes to the 405 error, with the methods registered there to
   tell in Allow; so with the default error handlers it is answered with 405 and that list *)
Theorem C91_options_partial : forall W (os : list (list nat * rop W)) x r w m h, Running os x -> ~ HasParams os ->
  r_method (arrive x r) = OPTIONS -> In (r_path (arrive x r), m, h) (registered os) ->
  (forall h', ~ In (r_path (arrive x r), OPTIONS, h') (registered os)) ->
  exists allow, AllowText (fun m => exists h, In (r_path (arrive x r), m, h) (registered os)) allow /\
    route x r = (set_allowed allow (arrive x r), ToError ErrMethodNotAllowed) /\
    (NoErrorHandlers os -> uses os [] = [] -> exists f,
       on_err x w (set_allowed allow (arrive x r)) (EHttp ErrMethodNotAllowed) =
         HUpdate (set_error (EHttp ErrMethodNotAllowed)) (HRet (Some f) w) /\
       f_code f = 405%N /\ f_body f = [] /\ f_headers f = [(B "Allow", allow)]).
Proof.
  intros W os x r w m h HR Hs Hm HI HN. destruct (static_routing W os x r HR Hs) as [S _].
  destruct (S (ex_intro _ m (ex_intro _ h HI))) as (_ & _ & A3 & (allow & A4 & A5)).
  exists allow. split; [exact A5|]. split.
  - rewrite (surjective_pairing (route x r)), A4. f_equal. apply A3; rewrite Hm; [exact HN|discriminate].
  - intros HE HU. destruct (default_answers W os x w (set_allowed allow (arrive x r)) ErrMethodNotAllowed HR HE HU) as (f & F1 & F2 & F3 & F4).
    + intros [C _]. change (r_method (set_allowed allow (arrive x r))) with (r_method (arrive x r)) in C. congruence.
    + intro C. discriminate C.
    + exists f. split; [exact F1|]. split; [exact F2|]. split; [exact F3|]. exact (F4 eq_refl).
Qed.
Print Assumptions C91_options_partial.
(* C91: registering a route for "*" panics *)
Theorem C91_unregistrable : forall W (os : list (list nat * rop W)) x, Running os x -> forall p m h, In (p, m, h) (registered os) -> exists p', p = x2f :: p'.
Proof.
  intros W os x HR p m h HI. destruct (running_inv W os x HR) as (routes & _ & _ & _ & R4 & _). destruct (R4 _ HI) as [t Et]. cbn [fst] in Et.
  unfold tparse in Et. destruct p as [|c p]; [discriminate Et|]. destruct (Byte.eqb c SLASH) eqn:E; [|discriminate Et]. apply beq_eq in E. subst c. exists p. reflexivity.
Qed.
Print Assumptions C91_unregistrable.

(* ------------------------------------------------------------------------------------ *)
(* C92: the shorthands: each registers its handler for the method it is named after, and every
   method has one *)
Theorem C92_shorthands : forall W s path (h : handler W) ms,
  exists m, m <> MUnknown /\ NamedAfter s m /\ router_call s path h ms = Route m path h ms.
Proof.
  intros. exists (match s with ShGet => GET | ShHead => HEAD | ShPost => POST | ShPut => PUT | ShDelete => DELETE | ShConnect => CONNECT
                  | ShOptions => OPTIONS | ShTrace => TRACE | ShPatch => PATCH end).
  destruct s; (split; [discriminate|split; [vm_compute; reflexivity|reflexivity]]).
Qed.
Print Assumptions C92_shorthands.
Theorem C92_every_method : forall m, m <> MUnknown -> exists s, NamedAfter s m /\ forall s', NamedAfter s' m -> s' = s.
Proof.
  intros m Hm. destruct m; try contradiction.
  - exists ShGet. split; [reflexivity|]. intros s' H. destruct s'; vm_compute in H; first [discriminate H|reflexivity].
  - exists ShHead. split; [reflexivity|]. intros s' H. destruct s'; vm_compute in H; first [discriminate H|reflexivity].
  - exists ShPost. split; [reflexivity|]. intros s' H. destruct s'; vm_compute in H; first [discriminate H|reflexivity].
  - exists ShPut. split; [reflexivity|]. intros s' H. destruct s'; vm_compute in H; first [discriminate H|reflexivity].
  - exists ShDelete. split; [reflexivity|]. intros s' H. destruct s'; vm_compute in H; first [discriminate H|reflexivity].
  - exists ShConnect. split; [reflexivity|]. intros s' H. destruct s'; vm_compute in H; first [discriminate H|reflexivity].
  - exists ShOptions. split; [reflexivity|]. intros s' H. destruct s'; vm_compute in H; first [discriminate H|reflexivity].
  - exists ShTrace. split; [reflexivity|]. intros s' H. destruct s'; vm_compute in H; first [discriminate H|reflexivity].
  - exists ShPatch. split; [reflexivity|]. intros s' H. destruct s'; vm_compute in H; first [discriminate H|reflexivity].
Qed.
Print Assumptions C92_every_method.

(* C92: resources: for all programs: a call on a resource, whenever it is made, registers its
   handler for its method at the path of the resource below the group it was made from, behind
   the middlewares of the groups on the way, then those of the resource (used before or after
   the call), then its own *)
Theorem C92_resource : forall W (os rest : list (list nat * rop W)) addr path c o m h ms,
  let all := os ++ (addr, resource_new path) :: rest in let res := addr ++ [List.length (kids os addr)] in
  Attaches c m h ms -> resource_call c = Some o -> In (res, o) all ->
  In (normalize (full_prefix all addr ++ path), m, behind (chain all addr ++ uses all res ++ ms) h) (registered all).
Proof. exact resource_route. Qed.
Print Assumptions C92_resource.
(* C92: so, without parameters, requests for the path with the method reach that handler *)
Theorem C92_answers : forall W (os rest : list (list nat * rop W)) addr path c o m h ms x r,
  let all := os ++ (addr, resource_new path) :: rest in let res := addr ++ [List.length (kids os addr)] in
  Attaches c m h ms -> resource_call c = Some o -> In (res, o) all -> Running all x -> ~ HasParams all ->
  r_path (arrive x r) = normalize (full_prefix all addr ++ path) -> r_method (arrive x r) = m ->
  snd (route x r) = ToHandler (behind (chain all addr ++ uses all res ++ ms) h).
Proof.
  intros W os rest addr path c o m h ms x r all res HA HC HI HR Hs HP HM.
  pose proof (resource_route W os rest addr path c o m h ms HA HC HI) as R. fold all res in R.
  destruct (static_routing W all x r HR Hs) as [S _]. rewrite HP in S.
  destruct S as (A1 & _); [eexists; eexists; exact R|]. apply A1. rewrite HM. exact R.
Qed.
Print Assumptions C92_answers.

(* C92: a catcher added to a resource is one of the prefix behind the path of the resource; the
   middlewares used by a resource are added to those it has; Static on a resource is Static on
   its group, without middlewares, and panics as that one does *)
Theorem C92_catch : forall W (os rest : list (list nat * rop W)) addr path prefix h ms,
  let all := os ++ (addr, resource_new path) :: rest in let res := addr ++ [List.length (kids os addr)] in
  exists o, resource_call (RcCatch prefix h ms) = Some o /\
    (In (res, o) all -> In (path_join (full_prefix all addr ++ path) prefix, behind (chain all addr ++ uses all res ++ ms) h) (caught all)).
Proof. exact resource_catch. Qed.
Print Assumptions C92_catch.
Theorem C92_use : forall W (os : list (list nat * rop W)) res ms,
  exists o, resource_call (RcUse ms) = Some o /\ uses (os ++ [(res, o)]) res = uses os res ++ ms.
Proof. exact resource_use. Qed.
Print Assumptions C92_use.
Theorem C92_static : forall W prefix root (pget : W -> pbuf) pput files,
  resource_call (RcStatic prefix root pget pput files) = static_call prefix root pget pput files [].
Proof. reflexivity. Qed.
Print Assumptions C92_static.
Example C92_catch_case : run ([([], Group (B "/api")); ([0%nat], Use [note 1]); ([0%nat], resource_new (B "/stat"))] ++
  match resource_call (RcCatch (B "/x") (say 1%N) [note 3]) with Some o => [([0; 0]%nat, o)] | None => [] end ++
  match resource_call (RcUse [note 2]) with Some o => [([0; 0]%nat, o)] | None => [] end)
  (get (B "/api/stat/x/y")) = Some (1%N, [], [], [1; 2; 3]%nat).
Proof. vm_compute. reflexivity. Qed.

Definition ex_resource : list (list nat * rop (list nat)) :=
  [([], Group (B "/api")); ([0%nat], Use [note 1]); ([0%nat], resource_new (B "/stat"))] ++
  match resource_call (RcBy ShGet (say 1%N) [note 3]) with Some o => [([0; 0]%nat, o)] | None => [] end ++
  match resource_call (RcUse [note 2]) with Some o => [([0; 0]%nat, o)] | None => [] end ++
  match resource_call (RcBy ShPut (say 2%N) []) with Some o => [([0; 0]%nat, o)] | None => [] end.
Example C92_case : run ex_resource (get (B "/api/stat/")) = Some (1%N, [], B "GET,PUT", [1; 2; 3]%nat) /\
  run ex_resource (set_method PUT (get (B "/api/stat"))) = Some (2%N, [], B "GET,PUT", [1; 2]%nat) /\
  run ex_resource (set_method OPTIONS (get (B "/api/stat"))) = Some (405%N, [], B "GET,PUT", []).
Proof. vm_compute. repeat split. Qed.
