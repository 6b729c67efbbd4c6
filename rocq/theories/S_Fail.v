(* Specification vocabulary for connections whose writes fail. *)
From Verif Require Import M_Base M_Status M_Method M_Proto M_KeyValue M_Query M_Request M_Parser M_Client M_Body
  M_Response M_Serializer M_Suit.

(* programs that never write to the connection themselves; they may do everything else,
   taking the connection over and reading from it included *)
Inductive NoWrites {W : Type} : hprog W -> Prop :=
| Nw_ret : forall resp w, NoWrites (HRet resp w)
| Nw_body : forall op k, (forall o, NoWrites (k o)) -> NoWrites (HBody op k)
| Nw_update : forall g k, NoWrites k -> NoWrites (HUpdate g k)
| Nw_hijack : forall k, (forall o, NoWrites (k o)) -> NoWrites (HHijack k)
| Nw_read : forall k, (forall o, NoWrites (k o)) -> NoWrites (HConnRead k)
| Nw_crash : NoWrites HCrash
| Nw_try : forall p q k, NoWrites p -> NoWrites q -> (forall resp w, NoWrites (k resp w)) -> NoWrites (HTry p q k)
| Nw_look : forall k, (forall r, NoWrites (k r)) -> NoWrites (HLook k).

(* the writes a healthy connection would see, all of which succeed here too *)
Definition Passes (outcomes : list (option nat)) (ws : list bytes) : Prop :=
  Forall (fun x => x = None) (firstn (List.length ws) outcomes).
(* the writes a healthy connection would see, and those of one where a write fails after k
   bytes: the same up to the failing one, k bytes of that, and not a byte more *)
Inductive Cuts : list (option nat) -> list bytes -> list bytes -> Prop :=
| Cut_here : forall k outcomes d more, Cuts (Some k :: outcomes) (d :: more) [firstn k d]
| Cut_later : forall outcomes d ws ws', Cuts outcomes ws ws' -> Cuts (None :: outcomes) (d :: ws) (d :: ws').

(* the same connection with other outcomes of its coming writes *)
Definition over (outcomes : list (option nat)) (c : client) : client := Client (cl_net c) (cl_pending c) (cl_out c) outcomes.
Definition conn_over {CS W} (outcomes : list (option nat)) (st : conn CS W) : conn CS W := set_k_client (over outcomes (k_client st)) st.

(* the error handler, told that the connection is gone, panics or never returns *)
Definition NoticeFails {CS W} (cparse : CS -> bytes -> bool -> CS * (bytes * bytes * option cerr)) (max : Z)
    (on_error : W -> request -> http_error -> hprog W) : Prop :=
  exists w r b c, match run_handler cparse max (on_error w r ErrCloseConnection) r b c with
                  | HDone _ _ _ _ _ => False
                  | HPanic _ _ _ | HStuck => True
                  end.
