(* Specification: a server and the same server with Recover around everything. *)
From Verif Require Import M_Base M_Status M_Method M_Proto M_KeyValue M_Query M_Request M_Parser M_Client M_Body
  M_Response M_Serializer M_Suit M_Router M_Middleware M_Bundled.

(* [h'] does what [h] does, unless [h] panics *)
Definition Unless_panic {CS W} (cparse : CS -> bytes -> bool -> CS * (bytes * bytes * option cerr)) (max : Z) (h h' : hprog W) : Prop :=
  forall r (b : body CS) c, run_handler cparse max h' r b c = run_handler cparse max h r b c \/
    exists r1 b1 c1, run_handler cparse max h r b c = HPanic r1 b1 c1.
(* every error handler behind Recover *)
Definition recovering_errors {W} (on_error : world W -> request -> http_error -> hprog (world W)) : world W -> request -> http_error -> hprog (world W) :=
  fun w r e => recovering (fun w r => on_error w r e) w r.
(* what was sent, and possibly more *)
Definition SentFirst {CS W} (a b : conn CS W) : Prop := exists more, cl_out (k_client b) = cl_out (k_client a) ++ more.
