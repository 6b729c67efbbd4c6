(* Specification of the router: what a list of calls registers, without looking at how the
   router keeps it. *)
From Coq Require Import Permutation Sorted.
From Verif Require Import M_Base M_Status M_Method M_KeyValue M_Request M_Response M_Suit M_Path M_Radix M_Router S_Routes.

Section Router.
Variable W : Type.
Notation handler := (handler W). Notation middleware := (middleware W). Notation rop := (rop W).
Notation catcher := (catcher W). Notation mtable := (mtable W).
Notation ops := (list (list nat * rop)).

Definition addr_eqb (a b : list nat) : bool := if list_eq_dec Nat.eq_dec a b then true else false.
(* the calls made on one group, in order *)
Definition calls (os : ops) (addr : list nat) : list rop := map snd (filter (fun x => addr_eqb (fst x) addr) os).
(* the prefixes of the groups created from it *)
Definition kids (os : ops) (addr : list nat) : list bytes :=
  flat_map (fun o => match o with Group p => [p] | _ => [] end) (calls os addr).
(* the middlewares it uses, in order *)
Definition uses (os : ops) (addr : list nat) : list middleware :=
  flat_map (fun o => match o with Use ms => ms | _ => [] end) (calls os addr).
(* the prefixes along the way to a group *)
Fixpoint prefix_below (os : ops) (pre addr : list nat) : bytes :=
  match addr with
  | [] => []
  | i :: addr' => nth i (kids os pre) [] ++ prefix_below os (pre ++ [i]) addr'
  end.
Definition full_prefix (os : ops) (addr : list nat) : bytes := prefix_below os [] addr.
(* the middlewares along the way to a group, outermost first *)
Fixpoint chain_below (os : ops) (pre addr : list nat) : list middleware :=
  uses os pre ++ match addr with [] => [] | i :: addr' => chain_below os (pre ++ [i]) addr' end.
Definition chain (os : ops) (addr : list nat) : list middleware := chain_below os [] addr.
(* the group at an address has been created *)
Fixpoint exists_below (os : ops) (pre addr : list nat) : Prop :=
  match addr with
  | [] => True
  | i :: addr' => (i < List.length (kids os pre))%nat /\ exists_below os (pre ++ [i]) addr'
  end.
Definition GroupExists (os : ops) (addr : list nat) : Prop := exists_below os [] addr.
(* a handler behind middlewares, the first one outermost *)
Definition behind (ms : list middleware) (h : handler) : handler := fold_right (fun m next => m next) h ms.

(* the routes registered anywhere, with the handler that has to run *)
Definition registered (os : ops) : list (bytes * method * handler) :=
  flat_map (fun x => match snd x with
    | Route m p h ms => [(normalize (full_prefix os (fst x) ++ p), m, behind (chain os (fst x) ++ ms) h)]
    | _ => []
    end) os.
(* the catchers *)
Definition caught (os : ops) : list (bytes * handler) :=
  flat_map (fun x => match snd x with
    | Catch p h ms => [(path_join (full_prefix os (fst x)) p, behind (chain os (fst x) ++ ms) h)]
    | _ => []
    end) os.
(* whether some route has a parameter *)
Definition HasParams (os : ops) : Prop :=
  exists p m h t name, In (p, m, h) (registered os) /\ tparse p = inr t /\ In (SWild name) t.
(* the error handler registered last for a code; the library's own ones count as registered
   before all others *)
Definition handler_for (os : ops) (c : code) : option handler :=
  fold_left (fun acc x => match snd x with
      | OnErrors h cs => if existsb (N.eqb c) (match cs with [] => [AllErrors] | _ => cs end) then Some h else acc
      | _ => acc
      end) os
    (if (c =? AllErrors)%N then Some default_all_errors
     else if (c =? 405)%N then Some default_method_not_allowed else None).

(* ... and the one that has to run for it *)
Definition error_choice (os : ops) (c : code) : handler :=
  behind (uses os []) (match handler_for os c with
                       | Some h => h
                       | None => match handler_for os AllErrors with Some h => h | None => default_all_errors end
                       end).
Definition NoErrorHandlers (os : ops) : Prop := forall addr h cs, ~ In (addr, OnErrors h cs) os.
(* a request with method m may be served by a handler registered for m' *)
Definition Serves (m m' : method) : Prop := m = m' \/ (m = HEAD /\ m' = GET).
(* a middleware that notes its number, then calls the next handler *)
Definition mark (log : W -> nat -> W) (n : nat) : middleware := fun next w r => next (log (fst w) n, snd w) r.
(* the aliases registered anywhere *)
Definition aliases (os : ops) : list (bytes * bytes) :=
  flat_map (fun x => match snd x with Alias from to => [(path_join (full_prefix os (fst x)) from, to)] | _ => [] end) os.
Definition NoMutators (os : ops) : Prop := forall addr mu, ~ In (addr, Mutate mu) os.
(* only aliases, no two of them for one path, none leading to another *)
Definition PlainAliases (os : ops) : Prop :=
  NoMutators os /\ NoDup (map fst (aliases os)) /\ forall f t, In (f, t) (aliases os) -> ~ In t (map fst (aliases os)).
(* the original path as left to the handler *)
Definition alias_env (f : bytes) (r : request) : request :=
  set_env (Env (env_error (r_env r)) (env_allowed (r_env r)) (env_encryption (r_env r)) f) r.
Definition Prefix (p path : bytes) : Prop := exists s, path = p ++ s.

(* ---- runs ---- *)
(* the same Go map, iterated in some order *)
Definition AnyOrder (l l' : list (bytes * mtable)) : Prop :=
  exists l2, Permutation l l2 /\ Forall2 (fun e e' => fst e = fst e' /\ Permutation (snd e) (snd e')) l2 l'.
(* a router is running after these calls: no call has panicked and Initialize has returned.
   The maps are iterated in any order; sort.Slice gives some permutation in order of
   decreasing length. *)
Definition Longer (c c' : catcher) : Prop := (List.length (fst c) >= List.length (fst c'))%nat.
Definition Running (os : ops) (x : runtime W) : Prop :=
  exists a g routes sorted,
    build os new_app = Some a /\ prepare (a_root a) = Some g /\
    AnyOrder (rg_routes (g_reg g)) routes /\
    Permutation (g_catchers g) sorted /\ Sorted Longer sorted /\
    initialize g (wrap_errs (a_errs a) (g_mws (a_root a))) routes sorted = Some x.

(* a list of methods as in an Allow header *)
Definition join_commas (l : list bytes) : bytes :=
  match l with [] => [] | s :: l' => s ++ concat (map (fun s => B "," ++ s) l') end.
Definition AllowText (ok : method -> Prop) (text : bytes) : Prop :=
  exists ms, NoDup ms /\ (forall m, In m ms <-> ok m) /\ text = join_commas (map method_string ms).
(* how a request at a registered place is answered: by the handler of its method, HEAD by that
   of GET if it has none of its own, other methods by 405; the Allow list is set *)
Definition Answered (R : method -> handler -> Prop) (r : request) (res : request * target W) : Prop :=
  (forall h, R (r_method r) h -> snd res = ToHandler h) /\
  (forall h, r_method r = HEAD -> (forall h', ~ R HEAD h') -> R GET h -> snd res = ToHandler h) /\
  ((forall h, ~ R (r_method r) h) -> (r_method r = HEAD -> forall h, ~ R GET h) -> snd res = ToError ErrMethodNotAllowed) /\
  exists a, fst res = set_allowed a r /\ AllowText (fun m => exists h, R m h) a.
(* routes at different paths have different templates *)
Definition DistinctTemplates (os : ops) : Prop :=
  forall p p' m m' h h', In (p, m, h) (registered os) -> In (p', m', h') (registered os) -> tparse p = tparse p' -> p = p'.
(* some route has the actual segment as static text where t has a wildcard, and agrees with t
   before *)
Definition Overruled (os : ops) (t : list seg) (parts : list bytes) : Prop :=
  exists pre name rest v rest' p m h, t = pre ++ SWild name :: rest /\ nth_error parts (List.length pre) = Some v /\
    In (p, m, h) (registered os) /\ tparse p = inr (pre ++ SStatic v :: rest').
(* two routes have wildcards of different names at one place *)
Definition TemplatesClash (os : ops) : Prop :=
  exists pre n1 n2 r1 r2 p m h p' m' h', n1 <> n2 /\ In (p, m, h) (registered os) /\ tparse p = inr (pre ++ SWild n1 :: r1) /\
    In (p', m', h') (registered os) /\ tparse p' = inr (pre ++ SWild n2 :: r2).

(* ---- routes given by templates, without the parser of templates ---- *)
(* templates that parse as what they are (C31): the first segment is not a wildcard, and the
   last is not a single character *)
Definition Proper (t : list seg) : Prop :=
  Forall good_seg t /\ match t with SWild _ :: _ => False | _ => True end /\
  (forall t' c, t <> t' ++ [SStatic [c]]).
(* every route is at the text of a proper template *)
Definition ProperRoutes (os : ops) : Prop :=
  forall p m h, In (p, m, h) (registered os) -> exists t, Proper t /\ p = template_text t.
(* t is overruled by the static text of a route *)
Definition StaticFirst (os : ops) (t : list seg) (parts : list bytes) : Prop :=
  exists pre name rest v rest' m h, t = pre ++ SWild name :: rest /\ nth_error parts (List.length pre) = Some v /\
    In (template_text (pre ++ SStatic v :: rest'), m, h) (registered os) /\ Proper (pre ++ SStatic v :: rest').
End Router.
Arguments GroupExists {W}. Arguments NoErrorHandlers {W}. Arguments mark {W}. Arguments PlainAliases {W}. Arguments TemplatesClash {W}. Arguments ProperRoutes {W}. Arguments StaticFirst {W}.
Arguments error_choice {W}. Arguments aliases {W}. Arguments NoMutators {W}. Arguments Answered {W}. Arguments DistinctTemplates {W}. Arguments Overruled {W}.
Arguments calls {W}. Arguments kids {W}. Arguments uses {W}. Arguments prefix_below {W}. Arguments full_prefix {W}.
Arguments chain_below {W}. Arguments chain {W}. Arguments behind {W}. Arguments registered {W}. Arguments caught {W}.
Arguments HasParams {W}. Arguments handler_for {W}. Arguments AnyOrder {W}. Arguments Longer {W}. Arguments Running {W}.
