(* Specification: applications of the built-in router whose handlers may take over connections. *)
From Verif Require Import M_Base M_Status M_Method M_Proto M_KeyValue M_Query M_Request M_Parser M_Client M_Body
  M_Response M_Serializer M_Suit M_Path M_Radix M_Router S_Static S_KeyValue S_Chunk S_Head S_Parser S_Body S_Response S_Conn S_Split S_Routes S_Router
  S_Serve S_Mutators S_Mutated S_Upgrade S_Takeover.

Section App.
Variable W : Type.
Notation ops := (list (list nat * rop W)).
(* as OrdinaryApp, but everything registered may take over the connection *)
Definition WillingApp (fbs : Z) (os : ops) : Prop :=
  (forall p m h, In (p, m, h) (registered os) -> forall w r, Willing fbs (h w r)) /\
  (forall p h, In (p, h) (caught os) -> forall w r, Prefix p (r_path r) -> Willing fbs (h w r)) /\
  (forall c, c = 404%N \/ c = 405%N -> forall w r, Willing fbs (error_choice os c w r)).
(* a request is given to the handler registered for what the mutators made of it *)
Definition DispatchedAs (os : ops) (mus : list (request -> request)) (w : world W) (q : req) (h : hprog (world W)) (r1 : request) : Prop :=
  exists r f, Shows (q_head q) r /\ Dispatch (settled os) (one_by_one mus r) f r1 /\ h = f w r1.
End App.
Arguments WillingApp {W}. Arguments DispatchedAs {W}.
