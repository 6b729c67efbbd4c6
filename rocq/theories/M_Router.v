(* router/inbuilt: registration, groups, middlewares, catchers, error handlers, routing. *)
From Verif Require Import M_Base M_Status M_Method M_Proto M_KeyValue M_Query M_Request M_Client M_Body
  M_Response M_Suit M_Path M_Radix.

Section Router.
(* what the application's handlers share *)
Variable W : Type.
(* ... together with the trace buffer of the router, runtimeRouter.traceBuff *)
Definition world : Type := W * bytes.
(* internal/types/types.go:11.  Handlers are never nil here. *)
Definition handler := world -> request -> hprog world.
(* middlewares.go:10: a middleware gets the next handler *)
Definition middleware := handler -> handler.
(* mutator.go:10: what a mutator does to the request *)
Definition mutator := request -> request.
(* catchers.go:11-14 *)
Definition catcher : Type := bytes * handler.

(* middlewares.go:27-37  compose *)
Definition compose (h : handler) (mws : list middleware) : handler := fold_right (fun m h => m h) h mws.

(* ---- registrar.go ---- *)
(* a Go map from methods to handlers, of registered routes *)
Definition mtable := list (method * handler).
(* registrar.go:12-16.  usedMethods is never used.  A Go map is an association list with one
   entry per key. *)
Record registrar := Registrar { rg_routes : list (bytes * mtable); rg_dynamic : bool }.
Definition new_registrar : registrar := Registrar [] false.
Fixpoint mt_get (t : mtable) (m : method) : option handler :=
  match t with [] => None | (k, h) :: t' => if method_eqb k m then Some h else mt_get t' m end.
Fixpoint rt_get (l : list (bytes * mtable)) (p : bytes) : option mtable :=
  match l with [] => None | (k, t) :: l' => if beqb k p then Some t else rt_get l' p end.
Fixpoint rt_set (l : list (bytes * mtable)) (p : bytes) (t : mtable) : list (bytes * mtable) :=
  match l with
  | [] => [(p, t)]
  | (k, t0) :: l' => if beqb k p then (k, t) :: l' else (k, t0) :: rt_set l' p t
  end.
(* one more handler; None: already registered *)
Definition routes_add (l : list (bytes * mtable)) (p : bytes) (m : method) (h : handler) : option (list (bytes * mtable)) :=
  let t := match rt_get l p with Some t => t | None => [] end in
  match mt_get t m with
  | Some _ => None
  | None => Some (rt_set l p (t ++ [(m, h)]))
  end.
(* registrar.go:24-40  Add.  None: an error, or the panic of MustParse; Route panics either
   way (route.go:17-20). *)
Definition reg_add (path : bytes) (m : method) (h : handler) (g : registrar) : option registrar :=
  let path := normalize path in
  match routes_add (rg_routes g) path m h with
  | None => None
  | Some rs =>
      match tparse path with
      | inl _ => None
      | inr t => Some (Registrar rs (rg_dynamic g || negb (is_static t)))
      end
  end.
(* registrar.go:42-60  Merge.  The order in which Go iterates the maps is not specified; it
   does not matter for whether there is a duplicate, nor for the result as a map. *)
Fixpoint merge_table (p : bytes) (t : mtable) (rs : list (bytes * mtable)) : option (list (bytes * mtable)) :=
  match t with
  | [] => Some rs
  | (m, h) :: t' => match routes_add rs p m h with Some rs' => merge_table p t' rs' | None => None end
  end.
Fixpoint merge_routes (l : list (bytes * mtable)) (rs : list (bytes * mtable)) : option (list (bytes * mtable)) :=
  match l with
  | [] => Some rs
  | (p, t) :: l' => match merge_table p t rs with Some rs' => merge_routes l' rs' | None => None end
  end.
Definition reg_merge (g another : registrar) : option registrar :=
  match merge_routes (rg_routes another) (rg_routes g) with
  | Some rs => Some (Registrar rs (rg_dynamic g || rg_dynamic another))
  | None => None
  end.
(* registrar.go:62-68  Apply *)
Definition reg_apply (f : handler -> handler) (g : registrar) : registrar :=
  Registrar (map (fun e => (fst e, map (fun mh => (fst mh, f (snd mh))) (snd e))) (rg_routes g)) (rg_dynamic g).

(* ---- inbuilt.go:25-34  Router; errHandlers is one map shared by all groups and kept apart ---- *)
Inductive router :=
| Router (prefix : bytes) (mutators : list mutator) (catchers : list catcher) (mws : list middleware)
         (reg : registrar) (children : list router).
Definition g_prefix (g : router) := let 'Router p _ _ _ _ _ := g in p.
Definition g_mutators (g : router) := let 'Router _ m _ _ _ _ := g in m.
Definition g_catchers (g : router) := let 'Router _ _ c _ _ _ := g in c.
Definition g_mws (g : router) := let 'Router _ _ _ m _ _ := g in m.
Definition g_reg (g : router) := let 'Router _ _ _ _ r _ := g in r.
Definition g_children (g : router) := let 'Router _ _ _ _ _ c := g in c.
Definition new_group (prefix : bytes) : router := Router prefix [] [] [] new_registrar [].

Definition errtable := list (code * handler).
Fixpoint et_get (t : errtable) (c : code) : option handler :=
  match t with [] => None | (k, h) :: t' => if (k =? c)%N then Some h else et_get t' c end.
Fixpoint et_set (t : errtable) (c : code) (h : handler) : errtable :=
  match t with
  | [] => [(c, h)]
  | (k, h0) :: t' => if (k =? c)%N then (k, h) :: t' else (k, h0) :: et_set t' c h
  end.
(* route.go:11 *)
Definition AllErrors : code := 0%N.
(* defaulterrhandlers.go:15-17 *)
Definition default_all_errors : handler := fun w r =>
  HRet (Some (resp_error (env_error (r_env r)) [] new_response)) w.
(* defaulterrhandlers.go:19-23 *)
Definition default_method_not_allowed : handler := fun w r =>
  match resp_header (B "Allow") [env_allowed (r_env r)] (resp_error (Some (EHttp ErrMethodNotAllowed)) [] new_response) with
  | Some f => HRet (Some f) w
  | None => HCrash        (* not reached *)
  end.
(* defaulterrhandlers.go:8-13 *)
Definition new_errtable : errtable := [(AllErrors, default_all_errors); (405%N, default_method_not_allowed)].

(* ---- the calls an application makes on a router or group ---- *)
Inductive rop :=
| Route (m : method) (path : bytes) (h : handler) (mws : list middleware)   (* route.go:14-23; predicates.go *)
| Use (mws : list middleware)                                              (* middlewares.go:14-18 *)
| Catch (prefix : bytes) (h : handler) (mws : list middleware)              (* catchers.go:18-36 *)
| Mutate (mu : mutator)                                                    (* mutator.go:15-18 *)
| Alias (from to : bytes)                                                  (* aliases.go:11-13 *)
| Group (prefix : bytes)                                                   (* groups.go:12-23; resource.go:17-21 *)
| OnErrors (h : handler) (codes : list code).                              (* route.go:46-56 *)

(* mutator/alias.go:8-15 *)
Definition alias (from to : bytes) : mutator := fun r =>
  if beqb (r_path r) from
  then set_path to (set_env (Env (env_error (r_env r)) (env_allowed (r_env r)) (env_encryption (r_env r)) from) r)
  else r.

(* the effect on the group itself; None: panic *)
Definition group_op (o : rop) (g : router) : option router :=
  let 'Router prefix mutators catchers mws reg children := g in
  match o with
  | Route m path h ms =>
      match reg_add (prefix ++ path) m (compose h ms) reg with
      | Some reg' => Some (Router prefix mutators catchers mws reg' children)
      | None => None
      end
  | Use ms => Some (Router prefix mutators catchers (mws ++ ms) reg children)
  | Catch p h ms =>
      let p := path_join prefix p in
      if existsb (fun c => beqb (fst c) p) catchers then None
      else Some (Router prefix mutators (catchers ++ [(p, compose h ms)]) mws reg children)
  | Mutate mu => Some (Router prefix (mutators ++ [mu]) catchers mws reg children)
  | Alias from to => Some (Router prefix (mutators ++ [alias (path_join prefix from) to]) catchers mws reg children)
  | Group p => Some (Router prefix mutators catchers mws reg (children ++ [new_group (prefix ++ p)]))
  | OnErrors _ _ => Some g
  end.
(* applied to the group at an address: the numbers of the groups on the way, in order of
   creation.  A program can only name groups it has created. *)
Fixpoint op_at (addr : list nat) (o : rop) (g : router) : option router :=
  match addr with
  | [] => group_op o g
  | i :: addr' =>
      let 'Router prefix mutators catchers mws reg children := g in
      match nth_error children i with
      | None => None
      | Some c =>
          match op_at addr' o c with
          | Some c' => Some (Router prefix mutators catchers mws reg (firstn i children ++ c' :: skipn (S i) children))
          | None => None
          end
      end
  end.
Record application := App { a_root : router; a_errs : errtable }.
(* inbuilt.go:37-45  New *)
Definition new_app : application := App (new_group []) new_errtable.
Definition app_op (x : list nat * rop) (a : application) : option application :=
  match op_at (fst x) (snd x) (a_root a) with
  | None => None
  | Some g =>
      Some (App g (match snd x with
                   | OnErrors h codes =>
                       fold_left (fun t c => et_set t c h) (match codes with [] => [AllErrors] | _ => codes end) (a_errs a)
                   | _ => a_errs a
                   end))
  end.
Fixpoint build (ops : list (list nat * rop)) (a : application) : option application :=
  match ops with
  | [] => Some a
  | x :: ops' => match app_op x a with Some a' => build ops' a' | None => None end
  end.

(* ---- groups.go:24-42  prepare.  None: a duplicate route (Initialize panics). ---- *)
Fixpoint prepare (g : router) : option router :=
  let 'Router prefix mutators catchers mws reg children := g in
  let step := fun (acc : option (registrar * list mutator * list catcher * list router)) (c : option router) =>
    match acc, c with
    | Some (reg, mus, cats, done), Some c' =>
        match reg_merge reg (g_reg c') with
        | Some reg' => Some (reg', mus ++ g_mutators c', cats ++ g_catchers c', done ++ [c'])
        | None => None
        end
    | _, _ => None
    end in
  match fold_left step (map prepare children) (Some (reg, mutators, catchers, [])) with
  | Some (reg', mutators', catchers', children') =>
      Some (Router prefix mutators' (map (fun c => (fst c, compose (snd c) mws)) catchers') mws
                   (reg_apply (fun h => compose h mws) reg') children')
  | None => None
  end.

(* ---- the running router ---- *)
(* types.go:14-17 and tree.go:17-20: a methods map and its Allow value *)
Record endpoint := Endpoint { ep_methods : method -> option handler; ep_allow : bytes }.
Definition no_methods : method -> option handler := fun _ => None.
Definition mset (f : method -> option handler) (m : method) (h : handler) : method -> option handler :=
  fun k => if method_eqb k m then Some h else f k.
(* all indices of a methods map in order *)
Definition all_methods : list method := MUnknown :: method_list.
(* strings.TrimRight(s, ",") *)
Fixpoint trim_commas (rs : bytes) : bytes :=
  match rs with c :: rs' => if Byte.eqb c x2c then trim_commas rs' else rs | [] => [] end.
Definition trim_right_commas (s : bytes) : bytes := rev (trim_commas (rev s)).
(* types.go:28-38  getAllowString *)
Definition allow_string (f : method -> option handler) : bytes :=
  trim_right_commas (concat (map (fun m => match f m with Some _ => method_string m ++ B "," | None => [] end) all_methods)).
(* types.go:21-26  routesMap.Add *)
Fixpoint ep_get (l : list (bytes * endpoint)) (p : bytes) : option endpoint :=
  match l with [] => None | (k, e) :: l' => if beqb k p then Some e else ep_get l' p end.
Fixpoint ep_set (l : list (bytes * endpoint)) (p : bytes) (e : endpoint) : list (bytes * endpoint) :=
  match l with
  | [] => [(p, e)]
  | (k, e0) :: l' => if beqb k p then (k, e) :: l' else (k, e0) :: ep_set l' p e
  end.
Definition rmap_add (l : list (bytes * endpoint)) (p : bytes) (m : method) (h : handler) : list (bytes * endpoint) :=
  let f := match ep_get l p with Some e => ep_methods e | None => no_methods end in
  let f' := mset f m h in
  ep_set l p (Endpoint f' (allow_string f')).
(* registrar.go:74-84  AsMap, iterating the routes in the given order *)
Definition as_map (routes : list (bytes * mtable)) : list (bytes * endpoint) :=
  fold_left (fun l e => fold_left (fun l mh => rmap_add l (fst e) (fst mh) (snd mh)) (snd e) l) routes [].
(* strings.TrimSuffix(s, ",") *)
Definition trim_comma (s : bytes) : bytes :=
  match last_byte s with Some c => if Byte.eqb c x2c then drop_last s else s | None => s end.
(* registrar.go:86-107  AsRadixTree, iterating the routes in the given order.  None: panic. *)
Definition tree_endpoint (t : mtable) : endpoint :=
  Endpoint (fold_left (fun f mh => mset f (fst mh) (snd mh)) t no_methods)
           (trim_comma (concat (map (fun mh => method_string (fst mh) ++ B ",") t))).
Fixpoint as_tree (routes : list (bytes * mtable)) (n : node endpoint) : option (node endpoint) :=
  match routes with
  | [] => Some n
  | (p, t) :: routes' =>
      match tparse p with
      | inl _ => None
      | inr segs => match insert segs (tree_endpoint t) n with Some n' => as_tree routes' n' | None => None end
      end
  end.
(* tree.go:31-33  New: the root has a payload without methods *)
Definition new_tree : node endpoint := new_node (Some (Endpoint no_methods [])).

(* inbuilt.go:49-57; the trace buffer is in the world *)
Record runtime := Runtime {
  x_mutators : list mutator; x_catchers : list catcher;
  x_table : list (bytes * endpoint) + node endpoint;
  x_errs : errtable
}.
(* inbuilt.go:185-189  applyErrorHandlersMiddlewares *)
Definition wrap_errs (t : errtable) (mws : list middleware) : errtable := map (fun e => (fst e, compose (snd e) mws)) t.
(* inbuilt.go:59-88  Initialize.  [routes]: the registered routes in the order the map is
   iterated; [sorted]: the catchers after sort.Slice.  None: panic. *)
Definition initialize (g : router) (errs : errtable) (routes : list (bytes * mtable)) (sorted : list catcher) : option runtime :=
  if rg_dynamic (g_reg g) then
    match as_tree routes new_tree with
    | Some n => Some (Runtime (g_mutators g) sorted (inr n) errs)
    | None => None
    end
  else Some (Runtime (g_mutators g) sorted (inl (as_map routes)) errs).

(* inbuilt.go:193-200  getHandler *)
Definition get_handler (m : method) (f : method -> option handler) : option handler :=
  match f m, m with
  | None, HEAD => f GET
  | h, _ => h
  end.

(* inbuilt.go:170-174 *)
Definition run_mutators (mus : list mutator) (r : request) : request := fold_left (fun r mu => mu r) mus r.
Definition set_allowed (a : bytes) (r : request) : request :=
  set_env (Env (env_error (r_env r)) a (env_encryption (r_env r)) (env_alias_from (r_env r))) r.
Definition set_error (e : goerr) (r : request) : request :=
  set_env (Env (Some e) (env_allowed (r_env r)) (env_encryption (r_env r)) (env_alias_from (r_env r))) r.

(* inbuilt.go:91-127: the request as changed on the way to its handler, and where it goes *)
Inductive target := ToHandler (h : handler) | ToError (e : http_error) | ToPanic.
Definition arrive (x : runtime) (r : request) : request :=
  let r := run_mutators (x_mutators x) r in set_path (normalize (r_path r)) r.
Definition to_endpoint (e : endpoint) (r : request) : request * target :=
  let r := set_allowed (ep_allow e) r in
  match get_handler (r_method r) (ep_methods e) with
  | Some h => (r, ToHandler h)
  | None => (r, ToError ErrMethodNotAllowed)
  end.
Definition route (x : runtime) (r : request) : request * target :=
  let r := arrive x r in
  match x_table x with
  | inl t =>
      match ep_get t (r_path r) with
      | None => (r, ToError ErrNotFound)
      | Some e => to_endpoint e r
      end
  | inr n =>
      match match_path n (r_path r) (r_params r) with
      | MFound e params => to_endpoint e (set_params params r)
      | MNone params => (set_params params r, ToError ErrNotFound)
      | MPanic | MStuck => (r, ToPanic)
      end
  end.

(* ---- trace.go ---- *)
(* trace.go:33-42 *)
Definition render_uri (r : request) : bytes :=
  r_path r ++ match q_raw (r_query r) with [] => [] | q => B "?" ++ q end.
(* trace.go:44-51 *)
Definition render_fields (ps : list pair_t) : bytes := concat (map (fun p => fst p ++ B ": " ++ snd p ++ CRLF) ps).
(* trace.go:20-31  renderHTTPRequest: appends to the buffer *)
Definition render_request (r : request) (buff : bytes) : bytes :=
  buff ++ method_string (r_method r) ++ B " " ++ render_uri r ++ B " " ++ trim_space (proto_string (r_proto r)) ++ CRLF ++
  render_fields (kv_pairs (r_headers r)) ++ B "Content-Length: 0" ++ CRLF ++ CRLF.
(* trace.go:14-18  traceResponse *)
Definition trace_response (text : bytes) : fields :=
  match resp_header (B "Content-Type") [B "message/http"] new_response with
  | Some f => set_rbody text f
  | None => new_response      (* not reached *)
  end.

(* ---- inbuilt.go:136-168  onError ---- *)
Definition http_error_eqb (a b : http_error) : bool := (he_code a =? he_code b)%N && beqb (he_msg a) (he_msg b).
Definition is_err (e : goerr) (h : http_error) : bool := match e with EHttp x => http_error_eqb x h | _ => false end.
Fixpoint find_catcher (cs : list catcher) (path : bytes) : option handler :=
  match cs with
  | [] => None
  | (p, h) :: cs' => if has_prefix path p then Some h else find_catcher cs' path
  end.
(* inbuilt.go:176-183 *)
Definition error_handler (t : errtable) (c : code) : option handler :=
  match et_get t c with Some h => Some h | None => et_get t AllErrors end.
Definition on_err (x : runtime) (w : world) (r : request) (e : goerr) : hprog world :=
  if method_eqb (r_method r) TRACE && is_err e ErrMethodNotAllowed then
    let text := render_request r (snd w) in
    HRet (Some (trace_response text)) (fst w, text)
  else
    match (if is_err e ErrNotFound then find_catcher (x_catchers x) (r_path r) else None) with
    | Some h => h w r
    | None =>
        match e with
        | EHttp he =>
            match error_handler (x_errs x) (he_code he) with
            | Some h => HUpdate (set_error e) (h w (set_error e r))
            | None => HRet (Some (set_rbody (he_msg he) (set_code (he_code he) new_response))) w
            end
        | _ => HRet (Some (set_code 500%N new_response)) w
        end
    end.

(* inbuilt.go:91-98  OnRequest.  The first component of [route] does not depend on handlers,
   so it can be recomputed from the request the handler runs with. *)
Definition on_request (x : runtime) (w : world) (r : request) : hprog world :=
  HUpdate (fun r0 => fst (route x r0))
    (let '(r', t) := route x r in
     match t with
     | ToHandler h => h w r'
     | ToError e => on_err x w r' (EHttp e)
     | ToPanic => HCrash
     end).
(* inbuilt.go:130-134  OnError *)
Definition on_error (x : runtime) (w : world) (r : request) (e : http_error) : hprog world :=
  HUpdate (run_mutators (x_mutators x)) (on_err x w (run_mutators (x_mutators x) r) (EHttp e)).
End Router.
Arguments compose {W}. Arguments mt_get {W}. Arguments rt_get {W}. Arguments rt_set {W}. Arguments routes_add {W}.
Arguments Registrar {W}. Arguments rg_routes {W}. Arguments rg_dynamic {W}. Arguments new_registrar {W}. Arguments reg_add {W}.
Arguments merge_table {W}. Arguments merge_routes {W}. Arguments reg_merge {W}. Arguments reg_apply {W}.
Arguments Router {W}. Arguments g_prefix {W}. Arguments g_mutators {W}. Arguments g_catchers {W}. Arguments g_mws {W}.
Arguments g_reg {W}. Arguments g_children {W}. Arguments new_group {W}. Arguments et_get {W}. Arguments et_set {W}.
Arguments default_all_errors {W}. Arguments default_method_not_allowed {W}. Arguments new_errtable {W}.
Arguments Route {W}. Arguments Use {W}. Arguments Catch {W}. Arguments Mutate {W}. Arguments Alias {W}. Arguments Group {W}. Arguments OnErrors {W}.
Arguments group_op {W}. Arguments op_at {W}. Arguments App {W}. Arguments a_root {W}. Arguments a_errs {W}. Arguments new_app {W}.
Arguments app_op {W}. Arguments build {W}. Arguments prepare {W}. Arguments Endpoint {W}. Arguments ep_methods {W}. Arguments ep_allow {W}.
Arguments no_methods {W}. Arguments mset {W}. Arguments allow_string {W}. Arguments ep_get {W}. Arguments ep_set {W}. Arguments rmap_add {W}.
Arguments as_map {W}. Arguments tree_endpoint {W}. Arguments as_tree {W}. Arguments new_tree {W}. Arguments Runtime {W}.
Arguments x_mutators {W}. Arguments x_catchers {W}. Arguments x_table {W}. Arguments x_errs {W}. Arguments wrap_errs {W}. Arguments initialize {W}.
Arguments get_handler {W}. Arguments ToHandler {W}. Arguments ToError {W}. Arguments ToPanic {W}. Arguments arrive {W}. Arguments to_endpoint {W}.
Arguments route {W}. Arguments find_catcher {W}. Arguments error_handler {W}. Arguments on_err {W}. Arguments on_request {W}. Arguments on_error {W}.
