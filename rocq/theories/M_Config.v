(* config/config.go *)
From Verif Require Import M_Base.

(* config.go:15-97 Config, flattened.  A map is its list of entries, None = nil. *)
Record config := Config {
  url_default : Z; url_maximal : Z; query_prealloc : Z;
  hnum_default : Z; hnum_maximal : Z; max_key_length : Z; max_value_length : Z;
  keyspace_default : Z; keyspace_maximal : Z; valspace_default : Z; valspace_maximal : Z;
  max_encoding_tokens : Z; default_headers : option (list (bytes * bytes)); cookies_prealloc : Z;
  body_max_size : Z; body_max_chunk : Z; body_decoding_buffer : Z;
  response_buff : Z; file_buff : Z; read_buffer : Z; read_timeout : Z }.

(* config.go:110-166  Default; durations in nanoseconds *)
Definition default_config : config := {|
  url_default := 2048; url_maximal := 65535; query_prealloc := 10;
  hnum_default := 10; hnum_maximal := 50; max_key_length := 100; max_value_length := 8192;
  keyspace_default := 1024; keyspace_maximal := 4096; valspace_default := 1024; valspace_maximal := 8192;
  max_encoding_tokens := 15; default_headers := Some [(B "Accept-Encodings", B "identity")];
  cookies_prealloc := 5;
  body_max_size := 536870912; body_max_chunk := 131072; body_decoding_buffer := 8192;
  response_buff := 1024; file_buff := 65536; read_buffer := 4096; read_timeout := 90000000000 |}.

(* config.go:217-231 *)
Definition num_or (custom default : Z) : Z := if (custom =? 0)%Z then default else custom.
Definition map_or {A} (custom default : option A) : option A := match custom with None => default | _ => custom end.

(* config.go:168-214  Fill.  CookiesPreAllocate does not occur in the literal: it is zero. *)
Definition fill (src : config) : config :=
  let d := default_config in {|
  url_default := num_or (url_default src) (url_default d);
  url_maximal := num_or (url_maximal src) (url_maximal d);
  query_prealloc := num_or (query_prealloc src) (query_prealloc d);
  hnum_default := num_or (hnum_default src) (hnum_default d);
  hnum_maximal := num_or (hnum_maximal src) (hnum_maximal d);
  max_key_length := num_or (max_key_length src) (max_key_length d);
  max_value_length := num_or (max_value_length src) (max_value_length d);
  keyspace_default := num_or (keyspace_default src) (keyspace_default d);
  keyspace_maximal := num_or (keyspace_maximal src) (keyspace_maximal d);
  valspace_default := num_or (valspace_default src) (valspace_default d);
  valspace_maximal := num_or (valspace_maximal src) (valspace_maximal d);
  max_encoding_tokens := num_or (max_encoding_tokens src) (max_encoding_tokens d);
  default_headers := map_or (default_headers src) (default_headers d);
  cookies_prealloc := 0;
  body_max_size := num_or (body_max_size src) (body_max_size d);
  body_max_chunk := num_or (body_max_chunk src) (body_max_chunk d);
  body_decoding_buffer := num_or (body_decoding_buffer src) (body_decoding_buffer d);
  response_buff := num_or (response_buff src) (response_buff d);
  file_buff := num_or (file_buff src) (file_buff d);
  read_buffer := num_or (read_buffer src) (read_buffer d);
  read_timeout := num_or (read_timeout src) (read_timeout d) |}.
