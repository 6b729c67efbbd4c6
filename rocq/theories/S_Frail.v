(* Specification of applications that may panic anywhere and have no Recover in front, and of
   requests that leave the mutators with an empty path. *)
From Verif Require Import M_Base M_Status M_Method M_Proto M_KeyValue M_Query M_Request M_Parser M_Client M_Body
  M_Response M_Serializer M_Suit M_Path M_Radix M_Router S_Static S_KeyValue S_Chunk S_Head S_Parser S_Body S_Response S_Conn S_Split S_Routes S_Router
  S_Serve S_Mutators S_Mutated.

Section Frail.
Variable W : Type.
Notation ops := (list (list nat * rop W)). Notation world := (world W).
(* everything registered may panic at any point; what is returned can be sent *)
Definition FrailApp (fbs : Z) (os : ops) : Prop :=
  (forall p m h, In (p, m, h) (registered os) -> forall w r, Tame (CanBeSent fbs) true (h w r)) /\
  (forall p h, In (p, h) (caught os) -> forall w r, Prefix p (r_path r) -> Tame (CanBeSent fbs) true (h w r)) /\
  (forall c, c = 404%N \/ c = 405%N -> forall w r, Tame (CanBeSent fbs) true (error_choice os c w r)).
(* what becomes of a request [q] that the mutators [mus] see first: the handler it goes to returns
   or panics; or, with parameters anywhere, there is no path left and the router panics itself *)
Inductive Outcome (os : ops) (mus : list (request -> request)) (w : world) (q : req) : hout world -> request -> Prop :=
| Oc_handled : forall r h r1 o r' v', Shows (q_head q) r ->
    (HasParams os -> r_path (one_by_one mus r) <> []) -> Dispatch (settled os) (one_by_one mus r) h r1 ->
    HSteps (more_of (q_head q)) (h w r1) r1 (fresh_view (q_text q)) o r' v' -> Outcome os mus w q o r'
| Oc_pathless : forall r r', Shows (q_head q) r -> HasParams os -> r_path (one_by_one mus r) = [] ->
    Outcome os mus w q Panics r'.
(* how the requests of a connection finish: all of them answered, or not the last ones because an
   answer closed the connection, or because of a panic *)
Inductive finish := AllAnswered | ClosedBefore (rest : list req) | PanickedAt (q : req) (rest : list req).
Inductive FrailTalk (defs : list entry) (os : ops) (mus : list (request -> request)) :
    list req -> world -> list bytes -> list bytes -> world -> finish -> Prop :=
| Ft_end : forall w past, FrailTalk defs os mus [] w past [] w AllAnswered
| Ft_open : forall q reqs w past resp w1 r' out outs w2 e,
    Outcome os mus w q (Returns resp w1) r' ->
    Sent defs past (h_proto (q_head q)) r' (not_nil resp) out -> stays_open (h_proto (q_head q)) r' (not_nil resp) ->
    FrailTalk defs os mus reqs w1 (past ++ names (not_nil resp)) outs w2 e ->
    FrailTalk defs os mus (q :: reqs) w past (out ++ outs) w2 e
| Ft_close : forall q reqs w past resp w1 r' out,
    Outcome os mus w q (Returns resp w1) r' ->
    Sent defs past (h_proto (q_head q)) r' (not_nil resp) out -> ~ stays_open (h_proto (q_head q)) r' (not_nil resp) ->
    FrailTalk defs os mus (q :: reqs) w past out w1 (ClosedBefore reqs)
| Ft_panic : forall q reqs w past r', Outcome os mus w q Panics r' ->
    FrailTalk defs os mus (q :: reqs) w past [] w (PanickedAt q reqs).
End Frail.
Arguments FrailApp {W}. Arguments Outcome {W}. Arguments FrailTalk {W}.
