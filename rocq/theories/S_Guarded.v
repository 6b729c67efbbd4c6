(* Specification of applications that may panic anywhere, behind Recover. *)
From Verif Require Import M_Base M_Status M_Method M_KeyValue M_Request M_Client M_Body M_Response M_Serializer M_Suit M_Router M_Middleware M_Bundled
  S_KeyValue S_Body S_Response S_Conn S_Split S_Routes S_Router.

Section Guarded.
Variable W : Type.
Notation ops := (list (list nat * rop W)).
(* a handler that may panic at any point; if it returns, its response can be sent *)
Definition MayPanic (fbs : Z) (h : handler W) : Prop := forall w r, Tame (CanBeSent fbs) true (h w r).
(* a middleware in front of such a handler makes such a handler: it may panic itself *)
Definition PassesOn (fbs : Z) (m : middleware W) : Prop := forall next, MayPanic fbs next -> MayPanic fbs (m next).
(* an application of these, the middleware used first on the router being Recover *)
Record Guarded (fbs : Z) (os : ops) : Prop := {
  gd_routes : forall addr m p h ms, In (addr, Route m p h ms) os -> MayPanic fbs h /\ Forall (PassesOn fbs) ms;
  gd_catchers : forall addr p h ms, In (addr, Catch p h ms) os -> MayPanic fbs h /\ Forall (PassesOn fbs) ms;
  gd_errors : forall addr h cs, In (addr, OnErrors h cs) os -> MayPanic fbs h;
  gd_uses : forall addr ms, In (addr, Use ms) os -> Forall (PassesOn fbs) ms;
  gd_recover : exists ms, uses os [] = recovering :: ms
}.
End Guarded.
Arguments MayPanic {W}. Arguments PassesOn {W}. Arguments Guarded {W}.
