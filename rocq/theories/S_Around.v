(* Specification: a router with one more middleware, used before all others. *)
From Verif Require Import M_Base M_Status M_Method M_KeyValue M_Request M_Response M_Suit M_Path M_Radix M_Router S_Guarded.

Section Around.
Variable W : Type.
(* [x'] takes every request to the same place as [x], with the same changes, and every handler,
   catcher and error handler of [x'] is that of [x] behind [f] *)
Record Around (f : middleware W) (x x' : runtime W) : Prop := {
  ar_mutators : x_mutators x' = x_mutators x;
  ar_request : forall r, fst (route x' r) = fst (route x r);
  ar_target : forall r, snd (route x' r) = match snd (route x r) with ToHandler h => ToHandler (f h) | t => t end;
  ar_catchers : forall path, find_catcher (x_catchers x') path = option_map f (find_catcher (x_catchers x) path);
  ar_errors : forall c, error_handler (x_errs x') c = option_map f (error_handler (x_errs x) c)
}.
(* an application of anything that may panic anywhere, whether it uses Recover or not *)
Record Panicky (fbs : Z) (os : list (list nat * rop W)) : Prop := {
  pk_routes : forall addr m p h ms, In (addr, Route m p h ms) os -> MayPanic fbs h /\ Forall (PassesOn fbs) ms;
  pk_catchers : forall addr p h ms, In (addr, Catch p h ms) os -> MayPanic fbs h /\ Forall (PassesOn fbs) ms;
  pk_errors : forall addr h cs, In (addr, OnErrors h cs) os -> MayPanic fbs h;
  pk_uses : forall addr ms, In (addr, Use ms) os -> Forall (PassesOn fbs) ms
}.
End Around.
Arguments Around {W}. Arguments Panicky {W}.
