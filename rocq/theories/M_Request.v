(* http/request.go: the request object shared by parser, body, router and serializer. *)
From Verif Require Import M_Base M_Status M_Method M_Proto M_KeyValue M_Query.

(* http/encryption/encryption.go:3-10 *)
Definition enc_token := N.
Definition enc_plain : enc_token := 0%N.
Definition enc_tls : enc_token := 1%N.

(* http/request.go:190-202  Environment *)
Record environment := Env {
  env_error : option goerr;
  env_allowed : bytes;
  env_encryption : enc_token;
  env_alias_from : bytes
}.
Definition env_zero : environment := Env None [] enc_plain [].

(* http/encoding.go:3-10 *)
Record encoding := Encoding {
  enc_transfer : list bytes;
  enc_content : list bytes;
  enc_chunked : bool;
  enc_trailer : bool
}.
Definition encoding_zero : encoding := Encoding [] [] false false.

(* http/request.go:23-70.  Left out: Remote, Body (own model, M_Body.v), client, response
   and cfg pointers, and the cookie jar (cleared on each use, modelled with the cookies).
   The context is represented by the list of values attached to it ([] is
   context.Background). *)
Record request := Request {
  r_method : method;
  r_path : bytes;
  r_query : query;
  r_params : storage;
  r_proto : proto;
  r_headers : storage;
  r_encoding : encoding;
  r_content_length : Z;
  r_content_type : bytes;
  r_connection : bytes;
  r_upgrade : proto;
  r_ctx : list pair_t;
  r_env : environment;
  r_hijacked : bool
}.

(* http/request.go:77-95  NewRequest *)
Definition new_request : request :=
  Request MUnknown [] (query_new kv_new) kv_new HTTP11 kv_new encoding_zero 0 [] [] PUnknown []
          env_zero false.

(* field updates *)
Definition set_method m r := Request m (r_path r) (r_query r) (r_params r) (r_proto r) (r_headers r) (r_encoding r) (r_content_length r) (r_content_type r) (r_connection r) (r_upgrade r) (r_ctx r) (r_env r) (r_hijacked r).
Definition set_path p r := Request (r_method r) p (r_query r) (r_params r) (r_proto r) (r_headers r) (r_encoding r) (r_content_length r) (r_content_type r) (r_connection r) (r_upgrade r) (r_ctx r) (r_env r) (r_hijacked r).
Definition set_query q r := Request (r_method r) (r_path r) q (r_params r) (r_proto r) (r_headers r) (r_encoding r) (r_content_length r) (r_content_type r) (r_connection r) (r_upgrade r) (r_ctx r) (r_env r) (r_hijacked r).
Definition set_params p r := Request (r_method r) (r_path r) (r_query r) p (r_proto r) (r_headers r) (r_encoding r) (r_content_length r) (r_content_type r) (r_connection r) (r_upgrade r) (r_ctx r) (r_env r) (r_hijacked r).
Definition set_proto p r := Request (r_method r) (r_path r) (r_query r) (r_params r) p (r_headers r) (r_encoding r) (r_content_length r) (r_content_type r) (r_connection r) (r_upgrade r) (r_ctx r) (r_env r) (r_hijacked r).
Definition set_headers h r := Request (r_method r) (r_path r) (r_query r) (r_params r) (r_proto r) h (r_encoding r) (r_content_length r) (r_content_type r) (r_connection r) (r_upgrade r) (r_ctx r) (r_env r) (r_hijacked r).
Definition set_encoding e r := Request (r_method r) (r_path r) (r_query r) (r_params r) (r_proto r) (r_headers r) e (r_content_length r) (r_content_type r) (r_connection r) (r_upgrade r) (r_ctx r) (r_env r) (r_hijacked r).
Definition set_content_length n r := Request (r_method r) (r_path r) (r_query r) (r_params r) (r_proto r) (r_headers r) (r_encoding r) n (r_content_type r) (r_connection r) (r_upgrade r) (r_ctx r) (r_env r) (r_hijacked r).
Definition set_content_type t r := Request (r_method r) (r_path r) (r_query r) (r_params r) (r_proto r) (r_headers r) (r_encoding r) (r_content_length r) t (r_connection r) (r_upgrade r) (r_ctx r) (r_env r) (r_hijacked r).
Definition set_connection c r := Request (r_method r) (r_path r) (r_query r) (r_params r) (r_proto r) (r_headers r) (r_encoding r) (r_content_length r) (r_content_type r) c (r_upgrade r) (r_ctx r) (r_env r) (r_hijacked r).
Definition set_upgrade u r := Request (r_method r) (r_path r) (r_query r) (r_params r) (r_proto r) (r_headers r) (r_encoding r) (r_content_length r) (r_content_type r) (r_connection r) u (r_ctx r) (r_env r) (r_hijacked r).
Definition set_ctx c r := Request (r_method r) (r_path r) (r_query r) (r_params r) (r_proto r) (r_headers r) (r_encoding r) (r_content_length r) (r_content_type r) (r_connection r) (r_upgrade r) c (r_env r) (r_hijacked r).
Definition set_env e r := Request (r_method r) (r_path r) (r_query r) (r_params r) (r_proto r) (r_headers r) (r_encoding r) (r_content_length r) (r_content_type r) (r_connection r) (r_upgrade r) (r_ctx r) e (r_hijacked r).
Definition set_hijacked b r := Request (r_method r) (r_path r) (r_query r) (r_params r) (r_proto r) (r_headers r) (r_encoding r) (r_content_length r) (r_content_type r) (r_connection r) (r_upgrade r) (r_ctx r) (r_env r) b.

(* http/request.go:169-186  Clear, the part after the body has been discarded.  Method,
   Path, Proto and the hijack flag are not touched. *)
Definition request_clear (r : request) : request :=
  Request (r_method r) (r_path r) (query_set (r_query r) []) (kv_clear (r_params r)) (r_proto r)
          (kv_clear (r_headers r)) encoding_zero 0 [] [] PUnknown [] env_zero (r_hijacked r).
