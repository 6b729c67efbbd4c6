(* Specification: applications that leave the writing to the server. *)
From Verif Require Import M_Base M_Status M_Request M_Body M_Response M_Suit M_Router S_Fail.

(* a handler that never writes to the connection itself *)
Definition Quiet {W} (h : handler W) : Prop := forall w r, NoWrites (h w r).
Definition KeepsQuiet {W} (mw : middleware W) : Prop := forall h, Quiet h -> Quiet (mw h).
(* all handlers of an application are, those its middlewares make included *)
Definition QuietApp {W} (os : list (list nat * rop W)) : Prop := forall addr o, In (addr, o) os ->
  match o with
  | Route _ _ h mws | Catch _ h mws => Quiet h /\ Forall KeepsQuiet mws
  | Use mws => Forall KeepsQuiet mws
  | OnErrors h _ => Quiet h
  | _ => True
  end.
