(* Specification vocabulary for P_Exact4.v. *)
From Verif Require Import M_Base M_Status M_Method M_Proto M_KeyValue M_Query M_Request M_Client M_Body M_Tools
  S_Query S_Tools S_Exact2.

(* ---- C78: what Dump writes before the body ---- *)
Definition header_line (p : bytes * bytes) : bytes := fst p ++ B ": " ++ snd p ++ CRLF.
Definition dump_head (r : request) (q : option (list (bytes * bytes))) : bytes :=
  method_string (r_method r) ++ B " " ++ target_text (r_path r) q ++ B " " ++ version_name (r_proto r) ++ CRLF ++
  concat (map header_line (kv_pairs (r_headers r))) ++ header_line (B "Content-Length", itoa (r_content_length r)) ++ CRLF.
(* [raw]: the query as sent, which means l with the error e; [before]: how it was accessed so far.
   An error is told to the first who asks; a request without query has no error. *)
Definition told (raw : bytes) (before : list q_access) (e : option http_error) : option http_error :=
  match raw, before with _ :: _, [] => e | _, _ => None end.
Definition dumped_query (raw : bytes) (l : list (bytes * bytes)) : option (list (bytes * bytes)) := match raw with [] => None | _ => Some l end.
