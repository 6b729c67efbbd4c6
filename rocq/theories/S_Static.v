(* Specification of file serving and of the automatic TRACE answer. *)
From Verif Require Import M_Base M_Status M_Method M_Proto M_KeyValue M_Query M_Request M_Response M_Suit M_Path M_Radix M_Router.

(* the names on a path; empty ones and "." mean nothing *)
Definition names (p : bytes) : list bytes := filter (fun s => negb (beqb s []) && negb (beqb s (B "."))) (split_slash p).
Definition absolute (p : bytes) : Prop := exists p', p = SLASH :: p'.
(* the file is below the root: names of the root, then names that do not go up *)
Definition InRoot (root file : bytes) : Prop :=
  exists rest, names file = names root ++ rest /\ ~ In (B "..") rest /\ (absolute file <-> absolute root).
Definition Suffix (s l : bytes) : Prop := exists a, l = a ++ s.
(* no two dots in a row anywhere *)
Definition NoDots (p : bytes) : Prop := ~ exists a b, p = a ++ B ".." ++ b.
(* the first separator of a path is not a backslash *)
Definition SlashPath (p : bytes) : Prop := forall a b, p = a ++ x5c :: b -> In SLASH a.

(* a request as text; a TRACE answer has it as its body *)
Definition request_text (line : bytes) (fields : list (bytes * bytes)) : bytes :=
  line ++ CRLF ++ concat (map (fun f => fst f ++ B ": " ++ snd f ++ CRLF) fields) ++ CRLF.
Definition request_line (m target proto : bytes) : bytes := m ++ B " " ++ target ++ B " " ++ proto.
(* the request line of a request *)
Definition trace_line (r : request) : bytes :=
  request_line (method_string (r_method r)) (r_path r ++ match q_raw (r_query r) with [] => [] | q => B "?" ++ q end) (trim_space (proto_string (r_proto r))).
(* the bodies of the answers to a sequence of TRACE requests, from whatever connections *)
Fixpoint trace_bodies {W} (x : runtime W) (w : world W) (rs : list request) : list bytes :=
  match rs with
  | [] => []
  | r :: rs' =>
      match on_err x w r (EHttp ErrMethodNotAllowed) with
      | HRet (Some f) w' => f_body f :: trace_bodies x w' rs'
      | _ => []
      end
  end.
(* each text with all earlier ones before it *)
Fixpoint running_concat (acc : bytes) (ts : list bytes) : list bytes :=
  match ts with [] => [] | t :: ts' => (acc ++ t) :: running_concat (acc ++ t) ts' end.
