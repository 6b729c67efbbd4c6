(* Property C103: the files and readers a handler brings. *)
From Verif Require Import M_Base M_Status M_Method M_Proto M_Client M_KeyValue M_Query M_Request M_Parser M_Response
  M_Serializer M_Descr S_KeyValue S_Response S_Descr L_Base L_Descr P_Parser L_ResponseProps.

(* C103: false: a file that another one replaces, one that Clear or request.Respond drops, a
   directory, and the file of an answer to HEAD are not closed *)
Theorem C103_refuted : exists f g,
  option_map ho_lost (ho_ops [RFile f (FFile [] 3); RFile g (FFile [] 3)] (ho_new new_response)) = Some [0%nat] /\
  option_map ho_lost (ho_ops [RFile f (FFile [] 3); RClear] (ho_new new_response)) = Some [0%nat] /\
  option_map ho_lost (ho_ops [RFile f FDir] (ho_new new_response)) = Some [0%nat] /\
  option_map (fun h => (ho_now h, ho_write HTTP11 (set_method HEAD ex_req) h ex_ser ex_conn)) (ho_ops [RFile f (FFile [] 3)] (ho_new new_response)) =
    Some (Some 0%nat, (WOk, None)).
Proof. exists (B "a.txt"), (B "b.txt"). vm_compute. repeat split. Qed.
Print Assumptions C103_refuted.
(* C103: for all responses and all sequences of builder calls: what a call opened or was given is
   lost exactly if it is a directory or a file without a size, or a later call sets the
   attachment again; otherwise it is the attachment of the response *)
Theorem C103_lost_exact : forall os f h i o, f_att f = None -> ho_ops os (ho_new f) = Some h -> nth_error os i = Some o -> Brings o ->
  (In i (ho_lost h) <-> Untaken o \/ exists j o', (i < j)%nat /\ nth_error os j = Some o' /\ Resets o') /\
  (ho_now h = Some i <-> ~ In i (ho_lost h)).
Proof. exact lost_exactly. Qed.
Print Assumptions C103_lost_exact.
(* C103: and writing the response closes it exactly if it is not lost, the request is not HEAD,
   the head could be written, and reading it neither panicked nor went on for ever *)
Theorem C103_closed_exact : forall os f h i o p r s c res cl, f_att f = None -> ho_ops os (ho_new f) = Some h -> nth_error os i = Some o -> Brings o ->
  ho_write p r h s c = (res, cl) ->
  (cl = Some i <-> ~ In i (ho_lost h) /\ r_method r <> HEAD /\ write_ok c /\ res <> WPanic /\ res <> WStuck).
Proof. exact closed_exactly. Qed.
Print Assumptions C103_closed_exact.
(* a directory, then a file with a status and a cookie, then an error: the file is still there, and
   is closed once it is sent *)
Definition ex_calls : list rop :=
  [RFile (B "d") FDir; RFile (B "a.txt") (FFile (reader_of [B "abc"] []) 3); RCode 201%N; RError (Some (EHttp ErrNotFound)) []].
Example C103_case : match ho_ops ex_calls (ho_new new_response) with
  | Some h => ho_lost h = [0%nat] /\ ho_now h = Some 1%nat /\ ho_write HTTP11 ex_req h ex_ser ex_conn = (WOk, Some 1%nat)
  | None => False
  end.
Proof. vm_compute. repeat split. Qed.
