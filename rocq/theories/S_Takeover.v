(* Specification: handlers that may take over the connection, and what they do with it. *)
From Verif Require Import M_Base M_Status M_Method M_Proto M_KeyValue M_Query M_Request M_Parser M_Client M_Body
  M_Response M_Serializer M_Suit S_KeyValue S_Chunk S_Head S_Parser S_Body S_Response S_Conn S_Upgrade.

(* what a handler has in its hands: the body only, or the connection too; [coming] are the
   answers the network is going to give to reads, [wrote] what the handler has written *)
Inductive grip := Open (v : view) | Over (v : view) (coming : list (bytes * option neterr)) (wrote : list bytes).
Definition is_over (g : grip) : bool := match g with Open _ => false | Over _ _ _ => true end.

(* A run of a handler, as HSteps.  [rest] is what stands behind the request: whoever takes over
   has the body discarded, and finds exactly rest on the connection, in some pieces.  From
   then on reads take what comes, and an exhausted network answers with an error. *)
Inductive FSteps {W} (more : bytes -> Prop) (rest : bytes) : hprog W -> request -> grip -> hout W -> request -> grip -> Prop :=
| FS_ret : forall resp w r m, FSteps more rest (HRet resp w) r m (Returns resp w) r m
| FS_crash : forall r m, FSteps more rest HCrash r m Panics r m
| FS_body : forall op k r v x v1 o r' m', Answer more v op x v1 -> FSteps more rest (k x) r (Open v1) o r' m' ->
    FSteps more rest (HBody op k) r (Open v) o r' m'
| FS_body_over : forall op k r v evs ws x v1 o r' m', Answer more v op x v1 -> FSteps more rest (k x) r (Over v1 evs ws) o r' m' ->
    FSteps more rest (HBody op k) r (Over v evs ws) o r' m'
| FS_update : forall g k r m o r' m', FSteps more rest k (g r) m o r' m' -> FSteps more rest (HUpdate g k) r m o r' m'
| FS_look : forall k r m o r' m', FSteps more rest (k r) r m o r' m' -> FSteps more rest (HLook k) r m o r' m'
| FS_hijack : forall k r v v1 evs o r' m', Answer more v ODiscard (RDiscard (Some None)) v1 -> net_data evs = rest ->
    FSteps more rest (k None) (set_hijacked true r) (Over v1 evs []) o r' m' -> FSteps more rest (HHijack k) r (Open v) o r' m'
| FS_hijack_again : forall k r v v1 evs ws o r' m', Answer more v ODiscard (RDiscard (Some None)) v1 ->
    FSteps more rest (k None) (set_hijacked true r) (Over v1 evs ws) o r' m' -> FSteps more rest (HHijack k) r (Over v evs ws) o r' m'
| FS_read : forall k r v ev evs ws o r' m', FSteps more rest (k ev) r (Over v evs ws) o r' m' ->
    FSteps more rest (HConnRead k) r (Over v (ev :: evs) ws) o r' m'
| FS_no_read : forall k r v ws o r' m', FSteps more rest (k ([], Some NOther)) r (Over v [] ws) o r' m' ->
    FSteps more rest (HConnRead k) r (Over v [] ws) o r' m'
| FS_write : forall d k r v evs ws o r' m', FSteps more rest (k true) r (Over v evs (ws ++ [d])) o r' m' ->
    FSteps more rest (HConnWrite d k) r (Over v evs ws) o r' m'
| FS_try : forall p q k r m resp w r1 m1 o r' m', FSteps more rest p r m (Returns resp w) r1 m1 -> FSteps more rest (k resp w) r1 m1 o r' m' ->
    FSteps more rest (HTry p q k) r m o r' m'
| FS_recover : forall p q k r m r1 m1 resp w r2 m2 o r' m', FSteps more rest p r m Panics r1 m1 -> FSteps more rest q r1 m1 (Returns resp w) r2 m2 ->
    FSteps more rest (k resp w) r2 m2 o r' m' -> FSteps more rest (HTry p q k) r m o r' m'
| FS_again : forall p q k r m r1 m1 r' m', FSteps more rest p r m Panics r1 m1 -> FSteps more rest q r1 m1 Panics r' m' ->
    FSteps more rest (HTry p q k) r m Panics r' m'.

(* Handlers that may take over the connection, or not.  [taken]: it has been taken over; reading
   from it and writing to it is for those who have.  Otherwise as Tame. *)
Inductive Free {W} : (option fields -> Prop) -> bool -> bool -> hprog W -> Prop :=
| Fr_ret : forall (ok : option fields -> Prop) panics taken resp w, ok resp -> Free ok panics taken (HRet resp w)
| Fr_crash : forall ok taken, Free ok true taken HCrash
| Fr_body : forall ok panics taken op k, (forall o, Free ok panics taken (k o)) -> Free ok panics taken (HBody op k)
| Fr_update : forall ok panics taken g k, harmless g -> Free ok panics taken k -> Free ok panics taken (HUpdate g k)
| Fr_look : forall ok panics taken k, (forall r, Free ok panics taken (k r)) -> Free ok panics taken (HLook k)
| Fr_hijack : forall ok panics taken k, Free ok panics true (k None) -> Free ok panics taken (HHijack k)
| Fr_read : forall ok panics k, (forall x, Free ok panics true (k x)) -> Free ok panics true (HConnRead k)
| Fr_write : forall ok panics d k, (forall x, Free ok panics true (k x)) -> Free ok panics true (HConnWrite d k)
| Fr_try : forall ok (mid : option fields -> Prop) panics taken p q k, Free mid true taken p -> Free mid panics taken q ->
    (forall resp w, mid resp -> Free ok panics taken (k resp w)) -> Free ok panics taken (HTry p q k).
(* those that do not panic and answer with responses that can be sent *)
Definition Willing {W} (fbs : Z) (h : hprog W) : Prop := Free (CanBeSent fbs) false false h.

(* [Seized Answer Begins reqs tail past ups st st1]: the handler of one of the requests took over.
   Those before were answered as always ([Answer]), and what this one writes comes right behind
   their responses; in front of it is everything behind its own request, and the loop left it
   there.  [Begins w q h r]: in the application state w, request q is given to h as r. *)
Definition Seized {CS W} (defs : list entry) (Answer : W -> req -> option fields -> W -> request -> Prop) (Begins : W -> req -> hprog W -> request -> Prop)
    (reqs : list req) (tail : bytes) (past : list bytes) (ups : list proto) (st st1 : conn CS W) : Prop :=
  exists before q after outs w1 h r resp r' v evs wrote,
    reqs = before ++ q :: after /\
    Exchange defs Answer before (k_world st) past ups outs w1 None /\
    Begins w1 q h r /\
    FSteps (more_of (q_head q)) (concat (map wire after) ++ tail) h r (Open (fresh_view (q_text q)))
      (Returns resp (k_world st1)) r' (Over v evs wrote) /\
    cl_out (k_client st1) = cl_out (k_client st) ++ outs ++ wrote /\
    stream (k_client st1) = net_data evs.
Definition GivenAs {W} (on_request : W -> request -> hprog W) (w : W) (q : req) (h : hprog W) (r : request) : Prop :=
  Shows (q_head q) r /\ h = on_request w r.
