(* Specification of several processes making the certificate at once. *)
From Verif Require Import M_Base M_Https M_Started.

Definition about (q : bytes) (e : fevent) : bool := match e with EEmptied _ p | EWrote _ p => beqb p q end.
(* nobody comes between the emptying of a file and the writing of it *)
Inductive InTurn : list fevent -> Prop :=
| InTurn_nil : InTurn []
| InTurn_cons i q l : InTurn l -> InTurn (EEmptied i q :: EWrote i q :: l).
Definition OneByOne (log : list fevent) (q : bytes) : Prop := InTurn (filter (about q) log).
(* i is the last to have written the file *)
Definition LastToWrite (log : list fevent) (q : bytes) (i : nat) : Prop :=
  exists before after, log = before ++ EWrote i q :: after /\ forall j, ~ In (EWrote j q) after.
Definition AllDone (s : procs) (o : outcome) : Prop := Forall (fun p => p = FRet o) (pr_progs s).
(* the process has had all its turns *)
Definition Done (s : procs) (i : nat) (o : outcome) : Prop := nth_error (pr_progs s) i = Some (FRet o).
