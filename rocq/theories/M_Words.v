(* internal/protocol/http1/parser.go: how the parser compares header names: eight, four or two
   bytes at a time, packed into machine words. *)
From Verif Require Import M_Base M_Status M_Method M_Proto M_KeyValue M_Query M_Request M_Parser.

(* uint8 -> uint64, uint32, uint16 *)
Definition word (b : byte) : N := bN b.
(* parser.go:445-448  encodeU64; no shift here leaves the 64 bits of the word *)
Definition encode_u64 (a b c d e f g h : byte) : N :=
  N.lor (N.lor (N.lor (N.lor (N.lor (N.lor (N.lor (N.shiftl (word h) 56) (N.shiftl (word g) 48)) (N.shiftl (word f) 40))
    (N.shiftl (word e) 32)) (N.shiftl (word d) 24)) (N.shiftl (word c) 16)) (N.shiftl (word b) 8)) (word a).
(* parser.go:450-452  encodeU32 *)
Definition encode_u32 (a b c d : byte) : N :=
  N.lor (N.lor (N.lor (N.shiftl (word d) 24) (N.shiftl (word c) 16)) (N.shiftl (word b) 8)) (word a).
(* parser.go:454-456  encodeU16 *)
Definition encode_u16 (a b : byte) : N := N.lor (N.shiftl (word b) 8) (word a).

(* parser.go:432-443 *)
Definition cUpgrade := encode_u64 "u" "p" "g" "r" "a" "d" "e" x00.
Definition cTrailer := encode_u64 "t" "r" "a" "i" "l" "e" "r" x00.
Definition cContent := encode_u64 "c" "o" "n" "t" "e" "n" "t" "-".
Definition cConnecti := encode_u64 "c" "o" "n" "n" "e" "c" "t" "i".
Definition cOn := encode_u16 "o" "n".
Definition cLength := encode_u64 "l" "e" "n" "g" "t" "h" x00 x00.
Definition cType := encode_u32 "t" "y" "p" "e".
Definition cEncoding := encode_u64 "e" "n" "c" "o" "d" "i" "n" "g".
Definition cTransfer := encode_u64 "t" "r" "a" "n" "s" "f" "e" "r".
Definition cEncodin := encode_u64 "-" "e" "n" "c" "o" "d" "i" "n".

(* key[i]|0x20.  The code has checked the length of the key before it indexes it: the default
   of [nth] is never reached. *)
Definition k20 (key : bytes) (i : nat) : byte := bor (nth i key x00) x20.
(* the first eight bytes, parser.go:227, 332, 338, 346, 354 *)
Definition first_word (key : bytes) : N :=
  encode_u64 (k20 key 0) (k20 key 1) (k20 key 2) (k20 key 3) (k20 key 4) (k20 key 5) (k20 key 6) (k20 key 7).
(* the second eight bytes, parser.go:348, 356 *)
Definition second_word (key : bytes) : N :=
  encode_u64 (k20 key 8) (k20 key 9) (k20 key 10) (k20 key 11) (k20 key 12) (k20 key 13) (k20 key 14) (k20 key 15).

(* parser.go:225-233: does the parser read the value as a length? *)
Definition length_by_words (key : bytes) : bool :=
  (List.length key =? 14) && (cContent =? first_word key)%N &&
  (cLength =? encode_u64 (k20 key 8) (k20 key 9) (k20 key 10) (k20 key 11) (k20 key 12) (k20 key 13) x00 x00)%N.

(* parser.go:315-363 *)
Definition header_by_words (cfg : hcfg) (key value : bytes) (r0 : request) : request :=
  let r := set_headers (kv_add (r_headers r0) key value) r0 in
  let e := r_encoding r in
  match List.length key with
  | 7 =>
      let encoded := encode_u64 (k20 key 0) (k20 key 1) (k20 key 2) (k20 key 3) (k20 key 4) (k20 key 5) (k20 key 6) x00 in
      if (encoded =? cUpgrade)%N then set_upgrade (choose_upgrade value) r
      else if (encoded =? cTrailer)%N then set_encoding (Encoding (enc_transfer e) (enc_content e) (enc_chunked e) true) r
      else r
  | 10 =>
      if (cConnecti =? first_word key)%N && (cOn =? encode_u16 (k20 key 8) (k20 key 9))%N then set_connection value r else r
  | 12 =>
      if (cContent =? first_word key)%N && (cType =? encode_u32 (k20 key 8) (k20 key 9) (k20 key 10) (k20 key 11))%N
      then set_content_type value r else r
  | 16 =>
      if (cContent =? first_word key)%N && (cEncoding =? second_word key)%N
      then set_encoding (Encoding (enc_transfer e) (fst (parse_encoding_string value (c_max_enc_tokens cfg)))
                                  (enc_chunked e) (enc_trailer e)) r
      else r
  | 17 =>
      if (cTransfer =? first_word key)%N && (cEncodin =? second_word key)%N && Byte.eqb (k20 key 16) "g"
      then let '(toks, ch) := parse_encoding_string value (c_max_enc_tokens cfg) in
           set_encoding (Encoding toks (enc_content e) ch (enc_trailer e)) r
      else r
  | _ => r
  end.
