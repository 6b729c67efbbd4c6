(* Specification: bodies of which not everything arrives, and what callbacks are called with. *)
From Verif Require Import M_Base M_Status M_Proto M_KeyValue M_Query M_Request M_Client M_Body S_Body.

(* everything that still arrives, however often reading fails in between *)
Fixpoint net_all (net : list (bytes * option neterr)) : bytes :=
  match net with
  | [] => []
  | (d, None) :: net' => d ++ net_all net'
  | (_, Some _) :: net' => net_all net'
  end.
Definition arrives (c : client) : bytes := cl_pending c ++ net_all (cl_net c).
(* the peer does not close its side in an orderly way: no read fails with io.EOF *)
Definition NotClosed (c : client) : Prop := Forall (fun ev => snd ev <> Some NEof) (cl_net c).

(* an answer that leaves the handler in no doubt that there is more, or that something failed:
   a piece without an end; an error; a callback that gave up by itself *)
Inductive Incomplete : bout -> Prop :=
| Un_bytes : Incomplete (RBytes (BRErr BNet))
| Un_piece : forall d, Incomplete (RPiece d None)
| Un_failed : forall d, Incomplete (RPiece d (Some BNet))
| Un_callback : forall ps, Incomplete (RCallback ps (Some (Some BNet)))
| Un_refused : forall ps, Incomplete (RCallback ps None)
| Un_discard : Incomplete (RDiscard (Some (Some BNet))).
(* the same kind of reading throughout: calls of Retrieve and Callback, or of Read *)
Definition Uniform (ops : list bop) : Prop :=
  Forall (fun op => match op with ORetrieve | OCallback _ => True | _ => False end) ops \/
  Forall (fun op => match op with ORead _ => True | _ => False end) ops.

(* every read of the connection hands out something *)
Definition Lively (c : client) : Prop := Forall (fun ev => fst ev <> []) (cl_net c).
