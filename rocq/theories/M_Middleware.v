(* router/inbuilt/middleware/httpsonly.go *)
From Verif Require Import M_Base M_Status M_Method M_Proto M_KeyValue M_Request M_Response.

(* httpsonly.go:54-60  removePort *)
Definition remove_port (s : bytes) : bytes :=
  match cut s x3a with Some (h, _) => h | None => s end.
(* httpsonly.go:20-52  HTTPSOnly with parameters RedirectTo and Port.  None: the next handler
   is called; Some: the response built (on the request's cleared response object). *)
Definition https_only (redirect_to port : bytes) (r : request) : option fields :=
  if negb (env_encryption (r_env r) =? enc_plain)%N then None
  else
    let host := match redirect_to with [] => remove_port (kv_value (r_headers r) (B "host")) | h => h end in
    match host with
    | [] => Some (set_rbody (B "no Host header") (set_code 400%N new_response))
    | _ =>
        let target := host ++ B ":" ++ port ++
                      (match env_alias_from (r_env r) with [] => r_path r | a => a end) in
        resp_header (B "Location") [B "https://" ++ target] (set_code 301%N new_response)
    end.
