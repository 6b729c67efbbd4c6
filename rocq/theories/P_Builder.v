(* Property C68: a response is what the calls on it say. *)
From Verif Require Import M_Base M_Status M_KeyValue M_Response S_KeyValue S_Builder L_Builder L_ResponseProps.

(* C68: for all sequences of calls: the last code, status, content type, transfer encoding and
   attachment count, headers and cookies are kept in the order of the calls, writes append to the
   last body; nothing from before the last Clear is left *)
Theorem C68_calls : forall os f, resp_ops os new_response = Some f -> Stands (fresh_calls os []) f.
Proof. exact builder_stands. Qed.
Print Assumptions C68_calls.
(* C68: the calls that panic are those of Header and Headers for Content-Type or Transfer-Encoding without
   a value *)
Theorem C68_panics : forall os f, resp_ops os f = None <-> exists o, In o os /\ ~ GivesValue o.
Proof. exact builder_panics. Qed.
Print Assumptions C68_panics.
Example C68_example : exists f,
  resp_ops [RCode 404%N; RHeader (B "A") [B "1"; B "2"]; RClear; RHeader (B "B") [B "1"; B "2"]; RHeader (B "content-TYPE") [B "a/b"];
            RBody (B "lost"); RWrite (B "lost, too"); RBody (B "x"); RWrite (B "y"); RCookie [ex_cookie]; RError (Some (EHttp ErrNotFound)) [];
            RHeader (B "A") [B "3"]; RCookie [ex_cookie]] new_response = Some f /\
  f = Fields 404%N [] (B "a/b") [] [(B "B", B "1"); (B "B", B "2"); (B "A", B "3")] (B "xy") [ex_cookie; ex_cookie] None.
Proof. eexists. split; [vm_compute; reflexivity|]. reflexivity. Qed.
Example C68_example_panic : ~ GivesValue (RHeader (B "Content-Type") []) /\ GivesValue (RHeader (B "Accept") []).
Proof.
  split.
  - intros H. apply (H (B "Content-Type")); [left; reflexivity|]. left. reflexivity.
  - intros k [H|[]] [K|K]; injection H as <-; discriminate K.
Qed.
