(* http/serve/http1.go with internal/construct: a connection from a configuration; indi.go: which
   configuration that is. *)
From Verif Require Import M_Base M_Status M_Config M_Request M_Parser M_Client M_Body M_Response M_Serializer M_Suit.

(* indi.go:28-41: New starts with the defaults, Tune replaces all of them *)
Definition app_config (tunes : list config) : config := fold_left (fun _ src => fill src) tunes default_config.

(* what the parser reads from the configuration: parser.go:67-68, 221, 293, 305 *)
Definition header_cfg (c : config) : hcfg := HCfg (hnum_maximal c) (max_value_length c) (max_encoding_tokens c).

Section Http1.
Variable CS : Type.
Variable cparse : CS -> bytes -> bool -> CS * (bytes * bytes * option cerr).
(* construct/constructors.go:24-28  chunkedbody.NewParser *)
Variable new_chunked : Z -> CS.
Variable W : Type.
Variable on_request : W -> request -> hprog W.
Variable on_error : W -> request -> http_error -> hprog W.

(* http/serve/http1.go:14-21, construct/constructors.go:15-40, suit.go:36-51.  The serializer's
   file buffer is as big as the response buffer is configured (suit.go:49).  [defs]: the map
   Headers.Default in the order it is iterated over. *)
Definition http1_conn (c : config) (defs : list (bytes * bytes)) (enc : enc_token) (cl : client) (w : W) : conn CS W :=
  new_conn (url_maximal c) (keyspace_maximal c) (valspace_maximal c) (response_buff c) defs enc (new_chunked (body_max_chunk c)) cl w.
Definition http1 (c : config) (defs : list (bytes * bytes)) (enc : enc_token) (fuel : nat) (cl : client) (w : W) : ending * conn CS W :=
  serve cparse (body_max_size c) (header_cfg c) on_request on_error fuel (http1_conn c defs enc cl w).

(* suit.go:53-55, 61-121  ServeOnce: serve with once = true, one round of the loop.  inr: true is
   returned, with the objects as they are then; inl: false. *)
Definition serve_once (max_body : Z) (cfg : hcfg) (st : conn CS W) : (ending * conn CS W) + conn CS W :=
  let '((data, e), c1) := client_read (k_client st) in
  let st := set_k_client c1 st in
  match e with
  | Some _ => inl (close_with cparse max_body on_error EndRead st)
  | None =>
      match parse cfg (k_parser st) data with
      | RPending p => inr (set_k_parser p st)
      | RDone p extra => on_head cparse max_body on_request on_error (set_k_parser p st) extra
      | RErr p err => inl (on_bad_head cparse max_body on_error (set_k_parser p st) err)
      | RPanic => inl (EndPanic, st)
      | RStuck => inl (EndStuck, st)
      end
  end.
End Http1.
Arguments serve_once {CS} cparse {W}.
Arguments http1_conn {CS} new_chunked {W}. Arguments http1 {CS} cparse new_chunked {W}.
