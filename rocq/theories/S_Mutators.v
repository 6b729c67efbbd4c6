(* Specification of mutators: which ones run, in which order, and what aliases make of a path. *)
From Verif Require Import M_Base M_Status M_Method M_KeyValue M_Request M_Response M_Suit M_Path M_Radix M_Router S_Routes S_Router.

Section Mutators.
Variable W : Type.
Notation ops := (list (list nat * rop W)).
(* an alias: another path, and the first one noted *)
Definition renames (from to : bytes) (mu : request -> request) : Prop :=
  forall r, (r_path r = from -> mu r = set_path to (alias_env from r)) /\ (r_path r <> from -> mu r = r).
(* what a call on a group with this prefix registers *)
Inductive Registers (prefix : bytes) : rop W -> list (request -> request) -> Prop :=
| Rg_mutator : forall mu, Registers prefix (Mutate mu) [mu]
| Rg_alias : forall from to mu, renames (path_join prefix from) to mu -> Registers prefix (Alias from to) [mu]
| Rg_other : forall o, (forall mu, o <> Mutate mu) -> (forall from to, o <> Alias from to) -> Registers prefix o [].
(* those of a group in the order of the calls, then those of the groups created from it, one
   group after the other *)
Inductive InOrder (os : ops) : list nat -> list (request -> request) -> Prop :=
| In_order : forall addr own below, Forall2 (Registers (full_prefix os addr)) (calls os addr) own ->
    List.length below = List.length (kids os addr) ->
    (forall i l, nth_error below i = Some l -> InOrder os (addr ++ [i]) l) ->
    InOrder os addr (concat own ++ concat below).
(* the router behind the mutators *)
Definition without (x : runtime W) : runtime W := Runtime [] (x_catchers x) (x_table x) (x_errs x).
End Mutators.
Arguments without {W}. Arguments Registers {W}. Arguments InOrder {W}.
(* one after the other *)
Definition one_by_one (mus : list (request -> request)) (r : request) : request := fold_left (fun r mu => mu r) mus r.

(* where a path ends up behind aliases, tried one after the other, and the path noted last *)
Inductive Follows : list (bytes * bytes) -> bytes -> bytes -> option bytes -> Prop :=
| Fo_end : forall p, Follows [] p p None
| Fo_other : forall f t l p q from, p <> f -> Follows l p q from -> Follows ((f, t) :: l) p q from
| Fo_alias : forall f t l q from, Follows l t q from -> Follows ((f, t) :: l) f q (Some (match from with None => f | Some g => g end)).
Definition noted (from : option bytes) (r : request) : request := match from with None => r | Some f => alias_env f r end.
