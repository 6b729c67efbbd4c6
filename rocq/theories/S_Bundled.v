(* Specification of the bundled middlewares. *)
From Verif Require Import M_Base M_Status M_KeyValue M_Query M_Request M_Client M_Body M_Response M_Suit M_Router
  S_KeyValue S_Static S_Virtual S_Conn.

(* an empty response with a code and one header *)
Definition answer_with (c : code) (name value : bytes) : fields := Fields c [] (B "text/html") [] [(name, value)] [] [] None.
(* what the client asked for: the path before aliases, and the query *)
Definition asked_path (r : request) : bytes := match env_alias_from (r_env r) with [] => r_path r | p => p end.
Definition asked (r : request) : bytes := asked_path r ++ match q_raw (r_query r) with [] => [] | q => B "?" ++ q end.
(* a Host header without and with a port; IPv6 addresses are not of this form *)
Definition NamesHost (h name : bytes) : Prop :=
  name <> [] /\ ~ In x3a name /\ (h = name \/ exists port, h = name ++ x3a :: port).
(* the response with one more header *)
Definition with_header (name value : bytes) (f : fields) : fields :=
  Fields (f_code f) (f_status f) (f_ctype f) (f_te f) (f_headers f ++ [(name, value)]) (f_body f) (f_cookies f) (f_att f).
(* the texts separated by spaces *)
Inductive Spaced : list bytes -> bytes -> Prop :=
| Sp_none : Spaced [] []
| Sp_one : forall s, Spaced [s] s
| Sp_more : forall s s' l t, Spaced (s' :: l) t -> Spaced (s :: s' :: l) (s ++ B " " ++ t).
(* 500 without a body *)
Definition internal_error : fields := Fields 500%N [] (B "text/html") [] [] [] [] None.
(* every logger got the line once, in order *)
Fixpoint told_all {W} (loggers : list (bytes -> W -> W)) (line : bytes) (w : W) : W :=
  match loggers with [] => w | l :: ls => told_all ls line (l line w) end.
(* a response that can be sent, and not nil *)
Definition Given (fbs : Z) (resp : option fields) : Prop := exists f, resp = Some f /\ Sendable fbs f.
