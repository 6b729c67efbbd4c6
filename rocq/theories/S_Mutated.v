(* Specification of a server with the built-in router and any mutators: the mutators run first, one
   after the other; the rest is a router without any. *)
From Verif Require Import M_Base M_Status M_Method M_Proto M_KeyValue M_Query M_Request M_Parser M_Client M_Body
  M_Response M_Serializer M_Suit M_Path M_Radix M_Router S_Static S_KeyValue S_Chunk S_Head S_Parser S_Body S_Response S_Conn S_Split S_Routes S_Router
  S_Serve S_Mutators.

Section Mutated.
Variable W : Type.
Notation ops := (list (list nat * rop W)).
(* the calls that register no mutator and no alias *)
Definition settles (o : rop W) : bool := match o with Mutate _ | Alias _ _ => false | _ => true end.
Definition settled (os : ops) : ops := filter (fun call => settles (snd call)) os.
(* mutators that leave the connection alone (aliases do) *)
Definition HarmlessMutators (os : ops) : Prop := forall addr mu, In (addr, Mutate mu) os -> harmless mu.
(* with parameters, no mutator or alias leaves an empty path (which would panic, tree.go:88) *)
Definition MutatedRoutable (os : ops) (mus : list (request -> request)) (reqs : list req) : Prop :=
  HasParams (settled os) ->
    forall q r, In q reqs -> Shows (q_head q) r -> r_path (one_by_one mus r) <> [].
(* a request is answered by the handler registered for what the mutators made of it *)
Definition MutatedTo (os : ops) (mus : list (request -> request)) (w : world W) (q : req) (resp : option fields) (w1 : world W) (r' : request) : Prop :=
  exists r h r1, Shows (q_head q) r /\ Dispatch (settled os) (one_by_one mus r) h r1 /\
    HRun (more_of (q_head q)) (h w r1) r1 (fresh_view (q_text q)) resp w1 r'.
End Mutated.
Arguments settles {W}. Arguments settled {W}. Arguments HarmlessMutators {W}. Arguments MutatedRoutable {W}. Arguments MutatedTo {W}.
