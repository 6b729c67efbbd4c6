(* Small specifications: cookies, header parameters, codings, addresses, escaping, config. *)
From Verif Require Import M_Base M_KeyValue S_KeyValue M_Coding M_Config.

(* ---- cookies: name=value joined with "; " ---- *)
Fixpoint cookie_text (l : list entry) : bytes :=
  match l with
  | [] => []
  | [(k, v)] => k ++ x3d :: v
  | (k, v) :: l' => k ++ x3d :: v ++ x3b :: SP :: cookie_text l'
  end.
Definition good_cookie (e : entry) : Prop :=
  fst e <> [] /\ ~ In x3d (fst e) /\ ~ In x3b (fst e) /\ (forall r, fst e <> SP :: r) /\ ~ In x3b (snd e).

(* ---- header values with parameters: v;p1=x1;...;pn=xn ---- *)
Fixpoint params_text (ps : list entry) : bytes :=
  match ps with
  | [] => []
  | (p, x) :: ps' => x3b :: p ++ x3d :: x ++ params_text ps'
  end.
Definition header_text (v : bytes) (ps : list entry) : bytes := v ++ params_text ps.
Definition good_param (e : entry) : Prop := ~ In x3b (fst e) /\ ~ In x3d (fst e) /\ ~ In x3b (snd e).
(* the value of the first parameter with exactly this name *)
Fixpoint param_value (ps : list entry) (key or : bytes) : bytes :=
  match ps with
  | [] => or
  | (p, x) :: ps' => if list_eq_dec Byte.byte_eq_dec p key then x else param_value ps' key or
  end.

(* ---- codings ---- *)
(* does coder c answer to token t? *)
Definition serves (c : coder) (t : bytes) : Prop :=
  t = cd_token c \/ (cd_token c = B "gzip" /\ t = B "x-gzip") \/
  (cd_token c = B "compress" /\ t = B "x-compress").

(* ---- configuration ---- *)
(* every numeric setting, by name *)
Inductive setting := SUrlDefault | SUrlMaximal | SQueryPreAlloc | SHeadersDefault | SHeadersMaximal
  | SMaxKeyLength | SMaxValueLength | SKeySpaceDefault | SKeySpaceMaximal | SValueSpaceDefault
  | SValueSpaceMaximal | SMaxEncodingTokens | SCookiesPreAllocate | SBodyMaxSize | SBodyMaxChunkSize
  | SDecodingBufferSize | SResponseBuffSize | SFileBuffSize | SReadBufferSize | SReadTimeout.
Definition get_setting (s : setting) : config -> Z :=
  match s with
  | SUrlDefault => url_default | SUrlMaximal => url_maximal | SQueryPreAlloc => query_prealloc
  | SHeadersDefault => hnum_default | SHeadersMaximal => hnum_maximal | SMaxKeyLength => max_key_length
  | SMaxValueLength => max_value_length | SKeySpaceDefault => keyspace_default
  | SKeySpaceMaximal => keyspace_maximal | SValueSpaceDefault => valspace_default
  | SValueSpaceMaximal => valspace_maximal | SMaxEncodingTokens => max_encoding_tokens
  | SCookiesPreAllocate => cookies_prealloc | SBodyMaxSize => body_max_size
  | SBodyMaxChunkSize => body_max_chunk | SDecodingBufferSize => body_decoding_buffer
  | SResponseBuffSize => response_buff | SFileBuffSize => file_buff | SReadBufferSize => read_buffer
  | SReadTimeout => read_timeout
  end.

(* ---- bytes in a log ---- *)
Definition printable (c : byte) : Prop := (32 <= bN c)%N /\ (bN c <= 126)%N.
Definition utf8_tail (c : byte) : Prop := (128 <= bN c)%N /\ (bN c <= 191)%N.
