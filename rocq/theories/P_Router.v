(* Properties C29, C30, C32 - C35, C50, C51: the router.
   [os] is any list of calls made on the router and its groups, [Running os x] says that none
   of them panicked and Initialize returned the router x; the maps are iterated in any
   order. *)
From Coq Require Import Permutation Sorted.
From Verif Require Import M_Base M_Status M_Method M_Proto M_KeyValue M_Query M_Request M_Response M_Suit M_Path M_Radix M_Router S_Routes S_Router
  L_Base L_Path L_Radix L_Router L_Router2 L_Router3 L_Router4 L_Router5 L_Router6 L_RouterEx L_Router7 M_Static S_Static L_ErrExact S_Mutators L_Mutators.

(* ------------------------------------------------------------------------------------ *)
(* C29: for all calls without path parameters, all orders, all requests: at a registered path
   the request goes to the handler of its method, HEAD to that of GET if it has none, other
   methods to the 405 error, with exactly the registered methods as Allow text (Answered);
   at any other path to the 404 error.  [arrive]: after the mutators and normalization. *)
Theorem C29_static : forall W (os : list (list nat * rop W)) x r, Running os x -> ~ HasParams os ->
  ((exists m h, In (r_path (arrive x r), m, h) (registered os)) ->
     Answered (fun m h => In (r_path (arrive x r), m, h) (registered os)) (arrive x r) (route x r)) /\
  ((forall m h, ~ In (r_path (arrive x r), m, h) (registered os)) -> route x r = (arrive x r, ToError ErrNotFound)).
Proof. exact static_routing. Qed.
Print Assumptions C29_static.
(* C29: without mutators, the path looked up is the normalized path of the request *)
Theorem C29_arrives : forall W (x : runtime W) r, x_mutators x = [] -> arrive x r = set_path (normalize (r_path r)) r.
Proof. intros W x r H. unfold arrive. rewrite H. reflexivity. Qed.
Print Assumptions C29_arrives.
(* C29: a route has one handler per method *)
Theorem C29_one_handler : forall W (os : list (list nat * rop W)) x p m h h', Running os x ->
  In (p, m, h) (registered os) -> In (p, m, h') (registered os) -> h = h'.
Proof. exact one_handler. Qed.
Print Assumptions C29_one_handler.
(* C29: how handlers and errors run: OnRequest runs exactly the handler, resp. the error *)
Theorem C29_runs : forall W (x : runtime W) w r h, snd (route x r) = ToHandler h ->
  on_request x w r = HUpdate (fun r0 => fst (route x r0)) (h w (fst (route x r))).
Proof. exact request_runs. Qed.
Print Assumptions C29_runs.
(* C29: the errors are answered with their status code, 405 with the Allow header, if the
   application has no error handlers, middlewares and catchers of its own, except for TRACE
   (C34, C35 for these) *)
Theorem C29_errors_partial : forall W (os : list (list nat * rop W)) x w r e, Running os x -> NoErrorHandlers os -> uses os [] = [] ->
  ~ (r_method r = TRACE /\ e = ErrMethodNotAllowed) -> (e = ErrNotFound -> caught os = []) ->
  exists f, on_err x w r (EHttp e) = HUpdate (set_error (EHttp e)) (HRet (Some f) w) /\ f_code f = he_code e /\ f_body f = [] /\
    (he_code e = 405%N -> f_headers f = [(B "Allow", env_allowed (r_env r))]).
Proof. exact default_answers. Qed.
Print Assumptions C29_errors_partial.
(* C29: TRACE is answered with 200 at registered paths that do not have it *)
Theorem C29_trace_refuted : exists (os : list (list nat * rop (list nat))) x r f,
  Running os x /\ In (B "/ab", GET, say 200%N) (registered os) /\ (forall p h, ~ In (p, TRACE, h) (registered os)) /\
  r_path r = B "/ab" /\ r_method r = TRACE /\ snd (route x r) = ToError ErrMethodNotAllowed /\
  (exists upd w, on_request x ([], []) r = HUpdate upd (HRet (Some f) w)) /\ f_code f = 200%N.
Proof.
  exists [([], Route GET (B "/ab") (say 200%N) [])]. eexists. exists (set_path (B "/ab") (set_method TRACE new_request)). eexists.
  split; [apply start_running; reflexivity|]. split; [left; reflexivity|].
  split; [intros p h [H|[]]; discriminate|]. split; [reflexivity|]. split; [reflexivity|]. split; [reflexivity|].
  split; [eexists; eexists; reflexivity|]. reflexivity.
Qed.
Print Assumptions C29_trace_refuted.

Definition ex_static : list (list nat * rop (list nat)) :=
  [([], Route GET (B "/users") (say 1%N) []); ([], Route POST (B "/users/") (say 2%N) []); ([], Route HEAD (B "/head") (say 3%N) []);
   ([], Group (B "/api")); ([0%nat], Route GET (B "/head") (say 4%N) [])].
Example C29_example :
  run ex_static (get (B "/users")) = Some (1%N, [], B "GET,POST", []) /\
  run ex_static (set_method HEAD (get (B "/users//"))) = Some (1%N, [], B "GET,POST", []) /\
  run ex_static (set_method PUT (get (B "/users"))) = Some (405%N, [], B "GET,POST", []) /\
  run ex_static (get (B "/head")) = Some (405%N, [], B "HEAD", []) /\
  run ex_static (get (B "/api/head")) = Some (4%N, [], B "GET", []) /\
  run ex_static (get (B "/api")) = Some (404%N, [], [], []).
Proof. vm_compute. repeat split. Qed.

(* ------------------------------------------------------------------------------------ *)
(* C30: false as it stands. *)
(* a path matches a template, yet is not found: the tree does not come back from the static
   segment *)
Theorem C30_backtracking_refuted : exists (os : list (list nat * rop (list nat))) x t m h parts ps r,
  Running os x /\ In (template_text t, m, h) (registered os) /\ r_method r = m /\ PathOf parts (r_path r) /\ Binds t parts ps /\
  (forall t' m' h' ps', Proper t' -> In (template_text t', m', h') (registered os) -> Binds t' parts ps' -> t' = t) /\
  snd (route x r) = ToError ErrNotFound.
Proof.
  exists [([], Route GET (B "/host/{x}/deep") (say 1%N) []); ([], Route GET (B "/host/ab/cd") (say 2%N) [])]. eexists.
  exists [SStatic (B "host"); SWild (B "x"); SStatic (B "deep")], GET, (say 1%N), [B "host"; B "ab"; B "deep"], [(B "x", B "ab")], (get (B "/host/ab/deep")).
  split; [apply start_running; vm_compute; reflexivity|]. split; [left; reflexivity|]. split; [reflexivity|].
  split; [split; [repeat constructor; intros H; cbn in H; intuition discriminate|left; split; [discriminate|reflexivity]]|].
  split; [apply Bd_static; apply (Bd_wild (B "x") (B "ab") [SStatic (B "deep")] [B "deep"] []); [discriminate|repeat constructor]|]. split; [|vm_compute; reflexivity].
  intros t' m' h' ps' HP [H|[H|[]]] HB.
  - apply (f_equal (fun e => tparse (fst (fst e)))) in H. cbn [fst] in H. rewrite (proper_parsed t' HP) in H. injection H as <-. reflexivity.
  - exfalso. apply (f_equal (fun e => tparse (fst (fst e)))) in H. cbn [fst] in H. rewrite (proper_parsed t' HP) in H. injection H as <-. inversion HB as [|? ? ? ? HB1|]; subst. inversion HB1 as [|? ? ? ? HB2|]; subst. inversion HB2.
Qed.
Print Assumptions C30_backtracking_refuted.
(* the root path is answered with 405 and an empty Allow list, without being registered *)
Theorem C30_root_refuted : exists (os : list (list nat * rop (list nat))) x r,
  Running os x /\ r_path r = B "/" /\ (forall m h, ~ In (B "/", m, h) (registered os)) /\
  snd (route x r) = ToError ErrMethodNotAllowed /\ env_allowed (r_env (fst (route x r))) = [].
Proof.
  exists [([], Route GET (B "/users/{id}") (say 1%N) [])]. eexists. exists (get (B "/")).
  split; [apply start_running; vm_compute; reflexivity|]. split; [reflexivity|]. split; [intros m h [H|[]]; discriminate|].
  split; vm_compute; reflexivity.
Qed.
Print Assumptions C30_root_refuted.
(* two routes with the same segments (C31): which handler answers depends on the order in
   which Go iterates over its map *)
Theorem C30_order_refuted : exists (os : list (list nat * rop (list nat))) x x' r,
  Running os x /\ Running os x' /\ r_path r = B "/users/x" /\
  snd (route x r) = ToError ErrNotFound /\
  (exists h, snd (route x (get (B "/users"))) = ToHandler h /\ h ([], []) r = HRet (Some (set_code 1%N new_response)) ([], [])) /\
  (exists h, snd (route x' (get (B "/users"))) = ToHandler h /\ h ([], []) r = HRet (Some (set_code 2%N new_response)) ([], [])).
Proof. exact order_matters. Qed.
Print Assumptions C30_order_refuted.
(* parameters met on the way to a dead end are left to the error handler *)
Theorem C30_leftover_refuted : exists (os : list (list nat * rop (list nat))) x r,
  Running os x /\ r_params r = kv_new /\ snd (route x r) = ToError ErrNotFound /\ kv_pairs (r_params (fst (route x r))) = [(B "id", B "7")].
Proof.
  exists [([], Route GET (B "/users/{id}/posts") (say 1%N) [])]. eexists. exists (get (B "/users/7")).
  split; [apply start_running; vm_compute; reflexivity|]. split; [reflexivity|]. split; vm_compute; reflexivity.
Qed.
Print Assumptions C30_leftover_refuted.

(* C30: all routes given by proper templates, at least one with a parameter; all orders, all
   paths.  A path that matches a template segment by segment is answered by its handlers with
   exactly its parameters, in order, unless another route has the static text of the path
   where this template has a wildcard; if there is no such template, with 404, resp. 405 for
   the root path.
   Missing: routes that are no proper templates (C31), backtracking, and 404 for the root. *)
Theorem C30_templates_partial : forall W (os : list (list nat * rop W)) x r parts, Running os x -> HasParams os -> ProperRoutes os -> PathOf parts (r_path (arrive x r)) ->
  (forall t m h ps, Proper t -> In (template_text t, m, h) (registered os) -> Binds t parts ps -> ~ StaticFirst os t parts ->
     Answered (fun m h => In (template_text t, m, h) (registered os)) (set_params (add_params (r_params (arrive x r)) ps) (arrive x r)) (route x r)) /\
  ((forall t m h ps, Proper t -> In (template_text t, m, h) (registered os) -> Binds t parts ps -> StaticFirst os t parts) ->
     (exists ps, route x r = (set_params ps (arrive x r), ToError ErrNotFound)) \/
     (parts = [] /\ route x r = (set_allowed [] (arrive x r), ToError ErrMethodNotAllowed))).
Proof. exact templates_routed. Qed.
Print Assumptions C30_templates_partial.
(* C30: the same for all routes, through the segments they are split into (C31) *)
Theorem C30_routes_partial : forall W (os : list (list nat * rop W)) x r parts, Running os x -> HasParams os -> DistinctTemplates os -> PathOf parts (r_path (arrive x r)) ->
  (forall p m h t ps, In (p, m, h) (registered os) -> tparse p = inr t -> Binds t parts ps -> ~ Overruled os t parts ->
     Answered (fun m h => In (p, m, h) (registered os)) (set_params (add_params (r_params (arrive x r)) ps) (arrive x r)) (route x r)) /\
  ((forall p m h t ps, In (p, m, h) (registered os) -> tparse p = inr t -> Binds t parts ps -> Overruled os t parts) ->
     (exists ps, route x r = (set_params ps (arrive x r), ToError ErrNotFound)) \/
     (parts = [] /\ route x r = (set_allowed [] (arrive x r), ToError ErrMethodNotAllowed))).
Proof. exact dynamic_routing. Qed.
Print Assumptions C30_routes_partial.
(* C30: every path that starts with a slash has such parts *)
Theorem C30_every_path : forall path, exists parts, PathOf parts (SLASH :: path).
Proof. exact path_parts. Qed.
Print Assumptions C30_every_path.
(* C30: routing never panics, unless an alias has made the path empty *)
Theorem C30_no_panic : forall W (os : list (list nat * rop W)) x r, Running os x -> r_path (arrive x r) <> [] -> snd (route x r) <> ToPanic.
Proof. exact routing_safe. Qed.
Print Assumptions C30_no_panic.

Definition ex_dynamic : list (list nat * rop (list nat)) :=
  [([], Route GET (B "/users/{id}") (say 1%N) []); ([], Route POST (B "/users/{id}/posts/{}") (say 2%N) []); ([], Route GET (B "/users/me") (say 3%N) []);
   ([], Group (B "/api/{ver}")); ([0%nat], Route GET (B "/head/{id}") (say 4%N) [])].
Example C30_example :
  run ex_dynamic (get (B "/users/7")) = Some (1%N, [(B "id", B "7")], B "GET", []) /\
  run ex_dynamic (get (B "/users/me")) = Some (3%N, [], B "GET", []) /\
  run ex_dynamic (set_method POST (get (B "/users/7/posts/8/"))) = Some (2%N, [(B "id", B "7")], B "POST", []) /\
  run ex_dynamic (get (B "/api/v1/head/abc")) = Some (4%N, [(B "ver", B "v1"); (B "id", B "abc")], B "GET", []) /\
  run ex_dynamic (get (B "/api/v1")) = Some (404%N, [(B "ver", B "v1")], [], []).
Proof. vm_compute. repeat split. Qed.

(* ------------------------------------------------------------------------------------ *)
(* C32: paths differing only in trailing slashes are routed identically, if there are at least
   two characters before the last other one.  Missing: shorter paths, mutators. *)
Theorem C32_routed_partial : forall W (x : runtime W) r q c k, x_mutators x = [] -> (2 <= List.length q)%nat -> c <> SLASH ->
  route x (set_path (q ++ c :: repeat SLASH k) r) = route x (set_path (q ++ [c]) r).
Proof. exact slashes_routed. Qed.
Print Assumptions C32_routed_partial.
(* C32: "/a" is found, "/a/" is not *)
Theorem C32_routed_refuted : exists (os : list (list nat * rop (list nat))) x, Running os x /\
  (exists h, snd (route x (get (B "/a"))) = ToHandler h) /\ snd (route x (get (B "/a/"))) = ToError ErrNotFound.
Proof.
  exists [([], Route GET (B "/a") (say 1%N) [])]. eexists.
  split; [apply start_running; vm_compute; reflexivity|]. split; [eexists; vm_compute; reflexivity|vm_compute; reflexivity].
Qed.
Print Assumptions C32_routed_refuted.

(* ------------------------------------------------------------------------------------ *)
(* C33: every handler a request reaches is that of a route, behind the middlewares of the
   groups on the way to it, the outermost group first and in order of registration within a
   group (chain), then those of the route (ms); whatever the group tree and the order of the
   calls. *)
Theorem C33_order : forall W (os : list (list nat * rop W)) x r H, Running os x -> snd (route x r) = ToHandler H ->
  exists addr m p h ms, In (addr, Route m p h ms) os /\ Serves (r_method (arrive x r)) m /\ H = behind (chain os addr ++ ms) h.
Proof. exact reached_behind. Qed.
Print Assumptions C33_order.
(* C33: the same for the routes as registered *)
Theorem C33_registered : forall W (os : list (list nat * rop W)) p m H, In (p, m, H) (registered os) <->
  exists addr p0 h ms, In (addr, Route m p0 h ms) os /\ p = normalize (full_prefix os addr ++ p0) /\ H = behind (chain os addr ++ ms) h.
Proof. exact in_registered. Qed.
Print Assumptions C33_registered.
(* C33: behind calls each once and in this order: numbers noted by middlewares that go on *)
Theorem C33_each_once : forall W (log : W -> nat -> W) ns (h : handler W) w r,
  behind (map (mark log) ns) h w r = h (fold_left log ns (fst w), snd w) r.
Proof. exact marks_in_order. Qed.
Print Assumptions C33_each_once.
(* C33: ... and a middleware that does not go on is the last to run *)
Theorem C33_stops : forall W ms (stop : handler W) ms' h, behind (ms ++ (fun _ => stop) :: ms') h = behind ms stop.
Proof. exact stops_there. Qed.
Print Assumptions C33_stops.
(* C33: the chain of a group within another *)
Theorem C33_nested : forall W (os : list (list nat * rop W)) addr i, chain os (addr ++ [i]) = chain os addr ++ uses os (addr ++ [i]).
Proof. exact chain_snoc. Qed.
Print Assumptions C33_nested.

Definition ex_groups : list (list nat * rop (list nat)) :=
  [([], Group (B "/one")); ([0%nat], Use [note 3]); ([0%nat], Route GET (B "/early") (say 1%N) [note 9]); ([0%nat], Group (B "/two"));
   ([0%nat; 0%nat], Route GET (B "/deep") (say 2%N) [note 8; note 7]); ([0%nat; 0%nat], Use [note 5]); ([], Use [note 1; note 2]); ([0%nat], Use [note 4])].
Example C33_example :
  run ex_groups (get (B "/one/early")) = Some (1%N, [], B "GET", [1; 2; 3; 4; 9]%nat) /\
  run ex_groups (get (B "/one/two/deep")) = Some (2%N, [], B "GET", [1; 2; 3; 4; 5; 8; 7]%nat) /\
  run ex_groups (get (B "/none")) = Some (404%N, [], [], [1; 2]%nat).
Proof. vm_compute. repeat split. Qed.

(* ------------------------------------------------------------------------------------ *)
(* C34: false as it stands. *)
(* the universal handler of the application does not get 405 *)
Theorem C34_universal_refuted : exists (os : list (list nat * rop (list nat))) x h r, Running os x /\
  In ([], OnErrors h []) os /\ (forall addr h' cs, In (addr, OnErrors h' cs) os -> cs = []) /\
  snd (route x r) = ToError ErrMethodNotAllowed /\
  outcome (h ([], []) r) r = Some (999%N, r, ([], [])) /\
  run os r = Some (405%N, [], B "GET", []).
Proof.
  exists [([], OnErrors (say 999%N) []); ([], Route GET (B "/ab") (say 1%N) [])]. eexists. exists (say 999%N), (set_method POST (get (B "/ab"))).
  split; [apply start_running; vm_compute; reflexivity|]. split; [left; reflexivity|].
  split; [intros addr h' cs [H|[H|[]]]; [injection H as _ _ <-; reflexivity|discriminate]|].
  split; [vm_compute; reflexivity|]. split; vm_compute; reflexivity.
Qed.
Print Assumptions C34_universal_refuted.
(* ... nor does any handler get the 405 of a TRACE request *)
Theorem C34_trace_refuted : exists (os : list (list nat * rop (list nat))) x h r, Running os x /\
  In ([], OnErrors h [405%N]) os /\ snd (route x r) = ToError ErrMethodNotAllowed /\
  outcome (h ([], []) r) r = Some (999%N, r, ([], [])) /\ run os r = Some (200%N, [], B "GET", []).
Proof.
  exists [([], OnErrors (say 999%N) [405%N]); ([], Route GET (B "/ab") (say 1%N) [])]. eexists. exists (say 999%N), (set_method TRACE (get (B "/ab"))).
  split; [apply start_running; vm_compute; reflexivity|]. split; [left; reflexivity|].
  split; [vm_compute; reflexivity|]. split; vm_compute; reflexivity.
Qed.
Print Assumptions C34_trace_refuted.

(* C34: for all calls and errors: the handler registered last for the code of the error, in
   whatever group, else the universal one, runs behind the middlewares of the router and no
   others (error_choice), with the error in the environment.
   Missing: 405 of TRACE requests; the library's own handler for 405 counts as registered; a
   catcher takes 404 (C35). *)
Theorem C34_chosen_partial : forall W (os : list (list nat * rop W)) x w r e, Running os x ->
  ~ (r_method r = TRACE /\ e = ErrMethodNotAllowed) ->
  (e = ErrNotFound -> forall p h, In (p, h) (caught os) -> ~ Prefix p (r_path r)) ->
  on_err x w r (EHttp e) = HUpdate (set_error (EHttp e)) (error_choice os (he_code e) w (set_error (EHttp e) r)).
Proof. exact errors_handled. Qed.
Print Assumptions C34_chosen_partial.
(* C34: for every error and every request: who answers.  The three cases exclude each other. *)
Theorem C34_exact : forall W (os : list (list nat * rop W)) x w r e, Running os x ->
  (r_method r = TRACE /\ e = ErrMethodNotAllowed /\
     let text := snd w ++ request_text (trace_line r) (kv_pairs (r_headers r) ++ [(B "Content-Length", B "0")]) in
     on_err x w r (EHttp e) = HRet (Some (Fields 200%N [] (B "message/http") [] [] text [] None)) (fst w, text)) \/
  (e = ErrNotFound /\ exists p h, In (p, h) (caught os) /\ Prefix p (r_path r) /\
     (forall p' h', In (p', h') (caught os) -> Prefix p' (r_path r) -> (List.length p' <= List.length p)%nat) /\
     on_err x w r (EHttp e) = h w r) \/
  (~ (r_method r = TRACE /\ e = ErrMethodNotAllowed) /\ ~ (e = ErrNotFound /\ exists p h, In (p, h) (caught os) /\ Prefix p (r_path r)) /\
     on_err x w r (EHttp e) = HUpdate (set_error (EHttp e)) (error_choice os (he_code e) w (set_error (EHttp e) r))).
Proof. exact errors_exact. Qed.
Print Assumptions C34_exact.
(* C34: the choice: the last registration for the code wins ... *)
Theorem C34_last : forall W (os : list (list nat * rop W)) addr h cs c, In c cs -> handler_for (os ++ [(addr, OnErrors h cs)]) c = Some h.
Proof. exact last_registered. Qed.
Print Assumptions C34_last.
Theorem C34_last_universal : forall W (os : list (list nat * rop W)) addr h, handler_for (os ++ [(addr, OnErrors h [])]) AllErrors = Some h.
Proof. exact last_universal. Qed.
Print Assumptions C34_last_universal.
(* ... other calls change nothing ... *)
Theorem C34_others : forall W (os : list (list nat * rop W)) addr o c,
  (forall h cs, o = OnErrors h cs -> ~ In c cs /\ (cs = [] -> c <> AllErrors)) -> handler_for (os ++ [(addr, o)]) c = handler_for os c.
Proof. exact others_irrelevant. Qed.
Print Assumptions C34_others.
(* ... without any registration the response carries the code of the error *)
Theorem C34_default : forall W (os : list (list nat * rop W)) x w r e, Running os x -> NoErrorHandlers os -> uses os [] = [] ->
  ~ (r_method r = TRACE /\ e = ErrMethodNotAllowed) -> (e = ErrNotFound -> caught os = []) ->
  exists f, on_err x w r (EHttp e) = HUpdate (set_error (EHttp e)) (HRet (Some f) w) /\ f_code f = he_code e /\ f_body f = [] /\
    (he_code e = 405%N -> f_headers f = [(B "Allow", env_allowed (r_env r))]).
Proof. exact default_answers. Qed.
Print Assumptions C34_default.

Definition ex_errors : list (list nat * rop (list nat)) :=
  [([], OnErrors (say 600%N) []); ([], Group (B "/api")); ([0%nat], OnErrors (say 604%N) [404; 500]%N); ([0%nat], Use [note 7]); ([], Use [note 1]);
   ([], Route GET (B "/ab") (say 1%N) [])].
Example C34_example :
  run ex_errors (get (B "/none")) = Some (604%N, [], [], [1]%nat) /\
  (exists x, start _ ex_errors = Some x /\ option_map (fun c => fst (fst c)) (outcome (on_error x ([], []) (get (B "/ab")) ErrBadRequest) (get (B "/ab"))) = Some 600%N).
Proof. split; [vm_compute; reflexivity|]. eexists. split; [vm_compute; reflexivity|]. vm_compute. reflexivity. Qed.

(* ------------------------------------------------------------------------------------ *)
(* C35: for all catchers and paths: when some catcher's prefix is a prefix of the path, a
   catcher with a longest such prefix handles the request ... *)
Theorem C35_longest : forall W (os : list (list nat * rop W)) x w r p h, Running os x -> In (p, h) (caught os) -> Prefix p (r_path r) ->
  exists q hq, In (q, hq) (caught os) /\ Prefix q (r_path r) /\ on_err x w r (EHttp ErrNotFound) = hq w r /\
    (forall p' h', In (p', h') (caught os) -> Prefix p' (r_path r) -> (List.length p' <= List.length q)%nat).
Proof. exact catcher_longest. Qed.
Print Assumptions C35_longest.
(* ... this one, if no other is registered under the same prefix ... *)
Theorem C35_the_longest : forall W (os : list (list nat * rop W)) x w r p h, Running os x ->
  In (p, h) (caught os) -> Prefix p (r_path r) ->
  (forall p' h', In (p', h') (caught os) -> Prefix p' (r_path r) -> (List.length p' <= List.length p)%nat) ->
  (forall h', In (p, h') (caught os) -> h' = h) ->
  on_err x w r (EHttp ErrNotFound) = h w r.
Proof. exact caught_longest. Qed.
Print Assumptions C35_the_longest.
(* ... and without any such prefix the error handler for 404 does *)
Theorem C35_none : forall W (os : list (list nat * rop W)) x w r, Running os x ->
  (forall p h, In (p, h) (caught os) -> ~ Prefix p (r_path r)) ->
  on_err x w r (EHttp ErrNotFound) = HUpdate (set_error (EHttp ErrNotFound)) (error_choice os 404%N w (set_error (EHttp ErrNotFound) r)).
Proof. exact nothing_caught. Qed.
Print Assumptions C35_none.
(* C35: the handler of a catcher is behind the middlewares of its groups *)
Theorem C35_behind : forall W (os : list (list nat * rop W)) p H, In (p, H) (caught os) <->
  exists addr p0 h ms, In (addr, Catch p0 h ms) os /\ p = path_join (full_prefix os addr) p0 /\ H = behind (chain os addr ++ ms) h.
Proof. exact in_caught. Qed.
Print Assumptions C35_behind.
(* C35: within one group a prefix cannot be registered twice *)
Theorem C35_twice_refused : forall W (os : list (list nat * rop W)) addr p h ms h' ms', In (addr, Catch p h ms) os ->
  build (os ++ [(addr, Catch p h' ms')]) new_app = None.
Proof. exact catcher_twice. Qed.
Print Assumptions C35_twice_refused.
(* C35: in two groups it can: then sort.Slice, which is not stable, decides which of the two
   handles the requests *)
Theorem C35_two_groups : exists (os : list (list nat * rop (list nat))) x x' w r, Running os x /\ Running os x' /\
  option_map (fun c => fst (fst c)) (outcome (on_request x w r) r) = Some 1%N /\
  option_map (fun c => fst (fst c)) (outcome (on_request x' w r) r) = Some 2%N.
Proof.
  pose (os := [([], Group (B "/ab")); ([0%nat], Catch (B "/cd") (say 1%N) []); ([], Catch (B "/ab/cd") (say 2%N) [])] : list (list nat * rop (list nat))).
  assert (E : exists a g x x', build os new_app = Some a /\ prepare (a_root a) = Some g /\ List.length (g_catchers g) = 2%nat /\
    (forall c, In c (g_catchers g) -> List.length (fst c) = 6%nat) /\
    initialize g (wrap_errs (a_errs a) (g_mws (a_root a))) (rg_routes (g_reg g)) (rev (g_catchers g)) = Some x /\
    initialize g (wrap_errs (a_errs a) (g_mws (a_root a))) (rg_routes (g_reg g)) (g_catchers g) = Some x' /\
    option_map (fun c => fst (fst c)) (outcome (on_request x ([], []) (get (B "/ab/cd/ef"))) (get (B "/ab/cd/ef"))) = Some 1%N /\
    option_map (fun c => fst (fst c)) (outcome (on_request x' ([], []) (get (B "/ab/cd/ef"))) (get (B "/ab/cd/ef"))) = Some 2%N).
  { eexists. eexists. eexists. eexists. split; [vm_compute; reflexivity|]. split; [vm_compute; reflexivity|]. split; [vm_compute; reflexivity|].
    split; [intros c [<-|[<-|[]]]; reflexivity|]. split; [vm_compute; reflexivity|]. split; [vm_compute; reflexivity|]. split; vm_compute; reflexivity. }
  destruct E as (a & g & x & x' & E1 & E2 & E3 & E4 & E5 & E6 & E7 & E8). exists os, x, x', ([], []), (get (B "/ab/cd/ef")).
  destruct (g_catchers g) as [|c [|c' [|? ?]]] eqn:EC; try discriminate E3.
  assert (L : Longer c c' /\ Longer c' c) by (unfold Longer; rewrite (E4 c), (E4 c'); [split; apply le_n|right; left; reflexivity|left; reflexivity]).
  split; [|split; [|auto]].
  - exists a, g, (rg_routes (g_reg g)), [c'; c]. repeat (split; [assumption|]). split; [apply any_order_refl|]. split; [rewrite EC; apply perm_swap|]. split; [|exact E5].
    constructor; [constructor; constructor|constructor; apply L].
  - exists a, g, (rg_routes (g_reg g)), [c; c']. repeat (split; [assumption|]). split; [apply any_order_refl|]. split; [rewrite EC; apply Permutation_refl|]. split; [|exact E6].
    constructor; [constructor; constructor|constructor; apply L].
Qed.
Print Assumptions C35_two_groups.

Definition ex_catch : list (list nat * rop (list nat)) :=
  [([], Catch (B "/ab") (say 1%N) []); ([], Group (B "/ab")); ([0%nat], Catch (B "/cd") (say 2%N) [note 2]); ([], Use [note 1]); ([], Route GET (B "/ab/cd/ef") (say 3%N) [])].
Example C35_example :
  run ex_catch (get (B "/ab/xy")) = Some (1%N, [], [], [1]%nat) /\
  run ex_catch (get (B "/ab/cd/xy")) = Some (2%N, [], [], [1; 2]%nat) /\
  run ex_catch (get (B "/ab/cd/ef")) = Some (3%N, [], B "GET", [1]%nat) /\
  run ex_catch (get (B "/xy")) = Some (404%N, [], [], [1]%nat).
Proof. vm_compute. repeat split. Qed.

(* ------------------------------------------------------------------------------------ *)
(* C50: false as it stands. *)
(* through two aliases, the original path is lost *)
Theorem C50_chain_refuted : exists (os : list (list nat * rop (list nat))) x r, Running os x /\ r_path r = B "/aa" /\
  r_path (fst (route x r)) = B "/cc" /\ env_alias_from (r_env (fst (route x r))) = B "/bb".
Proof.
  exists [([], Alias (B "/aa") (B "/bb")); ([], Alias (B "/bb") (B "/cc"))]. eexists. exists (get (B "/aa")).
  split; [apply start_running; vm_compute; reflexivity|]. repeat split; vm_compute; reflexivity.
Qed.
Print Assumptions C50_chain_refuted.
(* error handling applies the aliases once more to the path of the handler: it sees another
   path than the handler has seen *)
Theorem C50_error_path_refuted : exists (os : list (list nat * rop (list nat))) x r, Running os x /\
  let r' := fst (route x r) in
  (exists h, snd (route x r) = ToHandler h) /\ r_path r' = B "/bb" /\ r_path (run_mutators (x_mutators x) r') = B "/cc".
Proof.
  exists [([], Alias (B "/bb") (B "/cc")); ([], Alias (B "/aa") (B "/bb")); ([], Route GET (B "/bb") (say 1%N) [])]. eexists. exists (get (B "/aa")).
  split; [apply start_running; vm_compute; reflexivity|]. cbn zeta. split; [eexists; vm_compute; reflexivity|]. split; vm_compute; reflexivity.
Qed.
Print Assumptions C50_error_path_refuted.
(* an alias does not apply to its path with a trailing slash, while routes do (C32) *)
Theorem C50_slash_refuted : exists (os : list (list nat * rop (list nat))) x, Running os x /\
  (exists h, snd (route x (get (B "/new/"))) = ToHandler h) /\ (exists h, snd (route x (get (B "/old"))) = ToHandler h) /\
  snd (route x (get (B "/old/"))) = ToError ErrNotFound.
Proof.
  exists [([], Alias (B "/old") (B "/new")); ([], Route GET (B "/new") (say 1%N) [])]. eexists.
  split; [apply start_running; vm_compute; reflexivity|]. split; [eexists; vm_compute; reflexivity|]. split; [eexists; vm_compute; reflexivity|]. vm_compute. reflexivity.
Qed.
Print Assumptions C50_slash_refuted.

(* C50: for all alias tables without two aliases for one path or one leading to another, and
   no other mutators: a request to an alias is routed exactly as one to its target, with the
   original path in the environment ... *)
Theorem C50_target_partial : forall W (os : list (list nat * rop W)) x r f t, Running os x -> PlainAliases os -> In (f, t) (aliases os) -> r_path r = f ->
  snd (route x r) = snd (route x (set_path t r)) /\
  fst (route x r) = alias_env f (fst (route x (set_path t r))).
Proof. exact aliased_route. Qed.
Print Assumptions C50_target_partial.
(* ... other requests are untouched ... *)
Theorem C50_others_partial : forall W (os : list (list nat * rop W)) x r, Running os x -> PlainAliases os -> ~ In (r_path r) (map fst (aliases os)) ->
  arrive x r = set_path (normalize (r_path r)) r.
Proof. exact not_aliased. Qed.
Print Assumptions C50_others_partial.
(* ... and error handling sees the path of the handler, unless it is an alias again *)
Theorem C50_errors_partial : forall W (os : list (list nat * rop W)) x r, Running os x -> PlainAliases os ->
  ~ In (r_path (arrive x r)) (map fst (aliases os)) ->
  run_mutators (x_mutators x) (arrive x r) = arrive x r.
Proof. exact error_path. Qed.
Print Assumptions C50_errors_partial.
(* C50: for all tables, chains and several aliases for one path included, and no other
   mutators: where every request ends up, and which path is noted.  The aliases are tried in
   the order of C111. *)
Theorem C50_exact : forall W (os : list (list nat * rop W)) x, Running os x -> NoMutators os ->
  exists l, Permutation l (aliases os) /\ InOrder os [] (map (fun ft => alias (fst ft) (snd ft)) l) /\
    forall r, exists q from, Follows l (r_path r) q from /\ arrive x r = set_path (normalize q) (noted from r).
Proof. exact aliases_exact. Qed.
Print Assumptions C50_exact.
Theorem C50_follows_one : forall l p q from q' from', Follows l p q from -> Follows l p q' from' -> q = q' /\ from = from'.
Proof. intros l p q from q' from' H H'. exact (follows_one l p q from H q' from' H'). Qed.
Print Assumptions C50_follows_one.
(* C50: which aliases there are *)
Theorem C50_registered : forall W (os : list (list nat * rop W)) f t, In (f, t) (aliases os) <->
  exists addr f0, In (addr, Alias f0 t) os /\ f = path_join (full_prefix os addr) f0.
Proof. exact in_aliases. Qed.
Print Assumptions C50_registered.

Definition ex_alias : list (list nat * rop (list nat)) :=
  [([], Alias (B "/") (B "/static/index")); ([], Group (B "/api")); ([0%nat], Alias (B "/old") (B "/static/index")); ([], Route GET (B "/static/index") (say 1%N) [])].
Example C50_example : PlainAliases ex_alias /\ aliases ex_alias = [(B "/", B "/static/index"); (B "/api/old", B "/static/index")] /\
  run ex_alias (get (B "/")) = Some (1%N, [], B "GET", []) /\ run ex_alias (get (B "/api/old")) = Some (1%N, [], B "GET", []) /\
  run ex_alias (get (B "/old")) = Some (404%N, [], [], []).
Proof.
  split; [|vm_compute; repeat split]. split; [intros addr mu H; cbn in H; intuition discriminate|].
  change (aliases ex_alias) with [(B "/", B "/static/index"); (B "/api/old", B "/static/index")]. split.
  - repeat constructor; cbn [map fst In]; intuition discriminate.
  - intros f t [H|[H|[]]]; injection H as <- <-; cbn [map fst In]; intuition discriminate.
Qed.

(* ------------------------------------------------------------------------------------ *)
(* C51: once all calls have returned, the router starts exactly if no method and path is
   registered twice, in whatever groups, and no two routes have parameters of different names
   at one place *)
Theorem C51_starts : forall W (os : list (list nat * rop W)) a, build os new_app = Some a ->
  ((exists x, Running os x) <-> NoDup (map fst (registered os)) /\ ~ TemplatesClash os).
Proof. exact starts. Qed.
Print Assumptions C51_starts.
(* C51: a single call of Route panics exactly if the method and path are registered in the
   same group already, or the template is refused (C31); the group must exist *)
Theorem C51_route_refused : forall W (os : list (list nat * rop W)) a addr m p h ms, build os new_app = Some a ->
  (build (os ++ [(addr, Route m p h ms)]) new_app = None <->
     ~ GroupExists os addr \/
     (exists m' p' h' ms', In (addr, Route m' p' h' ms') os /\ m' = m /\ normalize (full_prefix os addr ++ p') = normalize (full_prefix os addr ++ p)) \/
     (exists e, tparse (normalize (full_prefix os addr ++ p)) = inl e)).
Proof. exact route_call_refused. Qed.
Print Assumptions C51_route_refused.
(* C51: all routes of all groups are reachable under their full prefix: C29_static and
   C30_templates_partial speak of all of [registered], which is all Route calls *)
Theorem C51_reachable_partial : forall W (os : list (list nat * rop W)) x addr m p h ms r, Running os x -> ~ HasParams os -> x_mutators x = [] ->
  In (addr, Route m p h ms) os -> normalize (r_path r) = normalize (full_prefix os addr ++ p) -> r_method r = m ->
  snd (route x r) = ToHandler (behind (chain os addr ++ ms) h).
Proof. exact reachable. Qed.
Print Assumptions C51_reachable_partial.
(* C51: Initialize is not repeatable: with a group, the second call panics ... *)
Theorem C51_repeat_refuted : exists (os : list (list nat * rop (list nat))) a g, build os new_app = Some a /\ prepare (a_root a) = Some g /\ prepare g = None.
Proof. exists [([], Group (B "/api")); ([0%nat], Route GET (B "/ab") (say 1%N) [])]. eexists. eexists. split; [vm_compute; reflexivity|]. split; vm_compute; reflexivity. Qed.
Print Assumptions C51_repeat_refuted.
(* ... without groups, the middlewares run twice afterwards *)
Theorem C51_repeat_middlewares_refuted : exists (os : list (list nat * rop (list nat))) a g g', build os new_app = Some a /\
  prepare (a_root a) = Some g /\ prepare g = Some g' /\
  (exists h, In (GET, h) (match rt_get (rg_routes (g_reg g)) (B "/ab") with Some t => t | None => [] end) /\ option_map snd (outcome (h ([], []) new_request) new_request) = Some ([1%nat], [])) /\
  (exists h, In (GET, h) (match rt_get (rg_routes (g_reg g')) (B "/ab") with Some t => t | None => [] end) /\ option_map snd (outcome (h ([], []) new_request) new_request) = Some ([1; 1]%nat, [])).
Proof.
  exists [([], Use [note 1]); ([], Route GET (B "/ab") (say 1%N) [])]. eexists. eexists. eexists. split; [vm_compute; reflexivity|]. split; [vm_compute; reflexivity|].
  split; [vm_compute; reflexivity|]. split; eexists; (split; [left; vm_compute; reflexivity|vm_compute; reflexivity]).
Qed.
Print Assumptions C51_repeat_middlewares_refuted.
(* C51: without duplicates, a router may still not start: parameters of different names *)
Theorem C51_names_refuted : exists (os : list (list nat * rop (list nat))), (exists a, build os new_app = Some a) /\ NoDup (map fst (registered os)) /\ forall x, ~ Running os x.
Proof. exact names_clash. Qed.
Print Assumptions C51_names_refuted.
Example C51_example : (exists x, start _ ex_groups = Some x) /\
  start _ (ex_groups ++ [([], Route GET (B "/one/two/deep") (say 5%N) [])]) = None /\
  (exists a, build (ex_groups ++ [([], Route GET (B "/one/two/deep") (say 5%N) [])]) new_app = Some a) /\
  build (ex_groups ++ [([0%nat; 0%nat], Route GET (B "/deep/") (say 5%N) [])]) new_app = None.
Proof. split; [eexists; vm_compute; reflexivity|]. split; [vm_compute; reflexivity|]. split; [eexists; vm_compute; reflexivity|]. vm_compute. reflexivity. Qed.
