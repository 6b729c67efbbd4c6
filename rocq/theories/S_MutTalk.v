(* Specification of an application with any mutators on a connection that receives any bytes. *)
From Verif Require Import M_Base M_Status M_Method M_Proto M_KeyValue M_Query M_Request M_Parser M_Client M_Body
  M_Response M_Serializer M_Suit M_Path M_Radix M_Router S_KeyValue S_Chunk S_Head S_Parser S_Body S_Response S_Split S_Verdict S_Arrive S_Conn S_Routes S_Router S_Serve S_Upgrade S_Talk
  S_Missing S_Sync S_Ends S_Broken S_Mutators S_Mutated.

Section MutTalk.
Variable W : Type.
Variable os : list (list nat * rop W).
Variable mus : list (request -> request).
(* with parameters, no mutator or alias makes a path empty *)
Definition AlwaysRoutable : Prop := HasParams (settled os) -> forall r, r_path r <> [] -> r_path (one_by_one mus r) <> [].
(* the handler the application dispatches to is the one for what the mutators made of the request;
   what it learns about the body is what the request said about it (S_Talk, S_Missing, S_Broken) *)
Definition MutRouted (w : world W) (r : request) (text : bytes) (resp : option fields) (w1 : world W) (r' : request) : Prop :=
  exists h r1, Dispatch (settled os) (one_by_one mus r) h r1 /\ HRun (more_for r) (h w r1) r1 (fresh_view text) resp w1 r'.
Definition MutMissRouted (long hung : bool) (w : world W) (r : request) (rest : bytes) (o : hout (world W)) (r' : request) : Prop :=
  exists h r1 v', Dispatch (settled os) (one_by_one mus r) h r1 /\ HGoes (MAnswer long hung (huge r)) (h w r1) r1 (missing_view long rest) o r' v'.
Definition MutBreakRouted (encoded : bool -> bytes -> bytes -> Prop) (max : Z) (hung : bool) (w : world W) (r : request) (rest : bytes) (resp : option fields) (w1 : world W) (r' : request) (told : bool) : Prop :=
  exists h r1, Dispatch (settled os) (one_by_one mus r) h r1 /\ BreakHandled encoded max (enc_trailer (r_encoding r)) hung (h w r1) r1 rest resp w1 r' told.
End MutTalk.
Arguments AlwaysRoutable {W}. Arguments MutRouted {W}. Arguments MutMissRouted {W}. Arguments MutBreakRouted {W}.
