(* internal/protocol/http1/parser.go: the request head parser. *)
From Verif Require Import M_Base M_Status M_Method M_Proto M_Uri M_KeyValue M_Query M_Request.

(* github.com/indigo-web/utils/buffer.Buffer (external, not in /repo).  Its memory is
   [b_done ++ b_seg]; the current segment begins at [length b_done].  Append refuses data
   that would make the memory longer than the maximum.  Segments already handed out stay
   valid because the memory only grows until Clear. *)
Record buffer := Buffer { b_done : bytes; b_seg : bytes; b_max : Z }.
Definition buf_append (b : buffer) (d : bytes) : option buffer :=
  if (len (b_done b) + len (b_seg b) + len d >? b_max b)%Z then None
  else Some (Buffer (b_done b) (b_seg b ++ d) (b_max b)).
Definition buf_seglen (b : buffer) : Z := len (b_seg b).
Definition buf_finish (b : buffer) : bytes * buffer :=
  (b_seg b, Buffer (b_done b ++ b_seg b) [] (b_max b)).
Definition buf_clear (b : buffer) : buffer := Buffer [] [] (b_max b).

(* parser.go:28-36  parserState *)
Inductive pstate :=
| eMethod | ePath | eHeaderKey | eContentLength | eContentLengthCR | eHeaderValue
| eHeaderValueCRLFCR.

(* config/config.go: the settings the parser reads *)
Record hcfg := HCfg {
  c_max_headers : Z;       (* Headers.Number.Maximal *)
  c_max_value : Z;         (* Headers.MaxValueLength *)
  c_max_enc_tokens : Z     (* Headers.MaxEncodingTokens = cap(encToksBuff) *)
}.

(* parser.go:44-57.  encToksBuff / contEncToksBuff always have length 0 when used, only
   their capacity matters (c_max_enc_tokens); urlEncodedChar is unused. *)
Record parser := Parser {
  p_state : pstate;
  p_start : buffer;
  p_key : buffer;
  p_val : buffer;
  p_hkey : bytes;
  p_hnum : Z;
  p_clen : Z;
  p_req : request
}.
Definition set_p_state s p := Parser s (p_start p) (p_key p) (p_val p) (p_hkey p) (p_hnum p) (p_clen p) (p_req p).
Definition set_p_start b p := Parser (p_state p) b (p_key p) (p_val p) (p_hkey p) (p_hnum p) (p_clen p) (p_req p).
Definition set_p_key b p := Parser (p_state p) (p_start p) b (p_val p) (p_hkey p) (p_hnum p) (p_clen p) (p_req p).
Definition set_p_val b p := Parser (p_state p) (p_start p) (p_key p) b (p_hkey p) (p_hnum p) (p_clen p) (p_req p).
Definition set_p_hkey k p := Parser (p_state p) (p_start p) (p_key p) (p_val p) k (p_hnum p) (p_clen p) (p_req p).
Definition set_p_hnum n p := Parser (p_state p) (p_start p) (p_key p) (p_val p) (p_hkey p) n (p_clen p) (p_req p).
Definition set_p_clen n p := Parser (p_state p) (p_start p) (p_key p) (p_val p) (p_hkey p) (p_hnum p) n (p_req p).
Definition set_p_req r p := Parser (p_state p) (p_start p) (p_key p) (p_val p) (p_hkey p) (p_hnum p) (p_clen p) r.

(* parser.go:59-72  NewParser, with the buffers of internal/construct/constructors.go:36-40
   (maxima URL.BufferSize, Headers.KeySpace, Headers.ValueSpace) *)
Definition new_parser (url_max key_max val_max : Z) (r : request) : parser :=
  Parser eMethod (Buffer [] [] url_max) (Buffer [] [] key_max) (Buffer [] [] val_max) [] 0 0 r.

(* parser.go:382-391  cleanup *)
Definition cleanup (p : parser) : parser :=
  Parser eMethod (buf_clear (p_start p)) (buf_clear (p_key p)) (buf_clear (p_val p)) (p_hkey p) 0 0
         (p_req p).

(* The key comparisons of parser.go:225-232 and 318-362: each byte of the key is or-ed with
   0x20 and compared with the lower-case name (encodeU64/32/16 pack such bytes injectively, so
   comparing the packed words compares the bytes: M_Words, C90_parser). *)
Definition or20 (b : byte) : byte := bor b x20.
Definition key_is (key name : bytes) : bool := beqb (map or20 key) name.

(* parser.go:422-430  trimPrefixSpaces *)
Fixpoint trim_prefix_spaces (l : bytes) : bytes :=
  match l with
  | c :: l' => if Byte.eqb c SP then trim_prefix_spaces l' else l
  | [] => []
  end.

(* parser.go:393-420  parseEncodingString; [buff] is the tokens collected so far.  [fuel]
   bounds the loop, every iteration shortens value.  (nil, false) when above the limit. *)
Fixpoint parse_encoding (fuel : nat) (value : bytes) (max : Z) (buff : list bytes) (chunked : bool)
  : list bytes * bool :=
  match fuel, value with
  | O, _ => (buff, chunked)
  | _, [] => (buff, chunked)
  | S f, _ =>
      let '(token, rest) := match cut value x2c with
                            | Some (a, b) => (a, b)
                            | None => (value, [])
                            end in
      let token := trim_space token in
      match token with
      | [] => parse_encoding f rest max buff chunked
      | _ =>
          if (Z.of_nat (List.length buff) + 1 >? max)%Z then ([], false)
          else parse_encoding f rest max (buff ++ [token])
                 (if equal_fold token (B "chunked") then true else chunked)
      end
  end.
Definition parse_encoding_string (value : bytes) (max : Z) : list bytes * bool :=
  parse_encoding (List.length value) value max [] false.

(* parser.go:316-362: what happens to the request when a header is complete *)
Definition apply_header (cfg : hcfg) (key value : bytes) (r0 : request) : request :=
  let r := set_headers (kv_add (r_headers r0) key value) r0 in
  match List.length key with
  | 7 => if key_is key (B "upgrade") then set_upgrade (choose_upgrade value) r
         else if key_is key (B "trailer") then
           set_encoding (Encoding (enc_transfer (r_encoding r)) (enc_content (r_encoding r))
                                  (enc_chunked (r_encoding r)) true) r
         else r
  | 10 => if key_is key (B "connection") then set_connection value r else r
  | 12 => if key_is key (B "content-type") then set_content_type value r else r
  | 16 => if key_is key (B "content-encoding") then
            set_encoding (Encoding (enc_transfer (r_encoding r))
                                   (fst (parse_encoding_string value (c_max_enc_tokens cfg)))
                                   (enc_chunked (r_encoding r)) (enc_trailer (r_encoding r))) r
          else r
  | 17 => if key_is key (B "transfer-encoding") then
            let '(toks, ch) := parse_encoding_string value (c_max_enc_tokens cfg) in
            set_encoding (Encoding toks (enc_content (r_encoding r)) ch
                                   (enc_trailer (r_encoding r))) r
          else r
  | _ => r
  end.

(* The result of running a piece of code: either jump to a label with the remaining data
   (labels coincide with parser states), or return to the caller. *)
Inductive pres :=
| RPending (p : parser)                       (* Pending, nil, nil *)
| RDone (p : parser) (extra : bytes)          (* HeadersCompleted, extra, nil *)
| RErr (p : parser) (e : http_error)          (* Error, nil, e *)
| RPanic                                      (* run-time panic: index out of range *)
| RStuck.                                     (* out of fuel; proved unreachable *)
Inductive jump :=
| Goto (l : pstate) (p : parser) (data : bytes)
| Ret (r : pres).

(* parser.go:99-132  label method *)
Definition step_method (p : parser) (data : bytes) : jump :=
  match cut data SP with
  | None =>
      match buf_append (p_start p) data with
      | None => Ret (RErr p ErrTooLongRequestLine)
      | Some b => Ret (RPending (set_p_start b p))
      end
  | Some (m, rest) =>
      let cont (p : parser) (mv : bytes) : jump :=
        match mv with
        | [] => Ret (RErr p ErrBadRequest)
        | _ => let mm := method_parse mv in
               let p := set_p_req (set_method mm (p_req p)) p in
               match mm with
               | MUnknown => Ret (RErr p ErrMethodNotImplemented)
               | _ => Goto ePath p rest
               end
        end in
      if (buf_seglen (p_start p) =? 0)%Z then cont p m
      else match buf_append (p_start p) m with
           | None => Ret (RErr p ErrTooLongRequestLine)
           | Some b => let '(mv, b') := buf_finish b in cont (set_p_start b' p) mv
           end
  end.

(* parser.go:150-180: interpretation of the rest of the request line *)
Definition request_line (p : parser) (line : bytes) : pres + parser :=
  match cut_last line SP with
  | None => inl (RErr p ErrBadRequest)
  | Some (reqpath, reqproto) =>
      match last_byte reqproto with
      | None => inl RPanic                    (* reqProto[len(reqProto)-1], line 157 *)
      | Some c =>
          let reqproto := if Byte.eqb c CR then drop_last reqproto else reqproto in
          let '(reqpath, p) :=
            match cut reqpath x3f with
            | None => (reqpath, p)
            | Some (path, q) =>
                (path, set_p_req (set_query (query_set (r_query (p_req p)) q) (p_req p)) p)
            end in
          match reqpath with
          | [] => inl (RErr p ErrBadRequest)
          | _ =>
              match uri_decode reqpath with
              | None => inl (RErr p ErrURIDecoding)
              | Some path =>
                  let pr := proto_from_bytes reqproto in
                  let p := set_p_req (set_proto pr (set_path path (p_req p))) p in
                  match pr with
                  | PUnknown => inl (RErr p ErrUnsupportedProtocol)
                  | _ => inr p
                  end
              end
          end
      end
  end.

(* parser.go:134-184  label path *)
Definition step_path (p : parser) (data : bytes) : jump :=
  match cut data LF with
  | None =>
      match buf_append (p_start p) data with
      | None => Ret (RErr p ErrURITooLong)
      | Some b => Ret (RPending (set_p_state ePath (set_p_start b p)))
      end
  | Some (l, rest) =>
      match buf_append (p_start p) l with
      | None => Ret (RErr p ErrURITooLong)
      | Some b =>
          let '(line, b') := buf_finish b in
          match request_line (set_p_start b' p) line with
          | inl r => Ret r
          | inr p' => Goto eHeaderKey p' rest
          end
      end
  end.

(* parser.go:186-235  label headerKey *)
Definition step_header_key (cfg : hcfg) (p : parser) (data : bytes) : jump :=
  match data with
  | [] => Ret (RPending (set_p_state eHeaderKey p))
  | c :: data' =>
      if Byte.eqb c LF then Ret (RDone (cleanup p) data')
      else if Byte.eqb c CR then Goto eHeaderValueCRLFCR p data'
      else
        match cut data x3a with
        | None =>
            match buf_append (p_key p) data with
            | None => Ret (RErr p ErrHeaderFieldsTooLarge)
            | Some b => Ret (RPending (set_p_state eHeaderKey (set_p_key b p)))
            end
        | Some (k, rest) =>
            match buf_append (p_key p) k with
            | None => Ret (RErr p ErrHeaderFieldsTooLarge)
            | Some b =>
                let '(key, b') := buf_finish b in
                let p := set_p_hnum (p_hnum p + 1)%Z (set_p_hkey key (set_p_key b' p)) in
                if (p_hnum p >? c_max_headers cfg)%Z then Ret (RErr p ErrTooManyHeaders)
                else if key_is key (B "content-length") then Goto eContentLength p rest
                else Goto eHeaderValue p rest
            end
        end
  end.

(* parser.go:238-249: the digit loop; returns the accumulated length and the rest of the
   data, None when all data is consumed.  Go int arithmetic wraps around. *)
Fixpoint clen_loop (n : Z) (data : bytes) : Z * option bytes :=
  match data with
  | [] => (n, None)
  | c :: d =>
      if Byte.eqb c SP then clen_loop n d
      else if is_digit c then clen_loop (wrap_i64 (n * 10 + (bZ c - 48))) d
      else (n, Some data)
  end.

(* parser.go:237-270  labels contentLength, contentLengthEnd *)
Definition step_content_length (p : parser) (data : bytes) : jump :=
  match clen_loop (p_clen p) data with
  | (n, None) => Ret (RPending (set_p_state eContentLength (set_p_clen n p)))
  | (n, Some data) =>
      let p := set_p_clen n p in
      let p := set_p_req (set_content_length n (p_req p)) p in
      match data with
      | c :: rest => if Byte.eqb c CR then Goto eContentLengthCR p rest
                     else if Byte.eqb c LF then Goto eHeaderKey p rest
                     else Ret (RErr p ErrBadRequest)
      | [] => Ret RPanic
      end
  end.

(* parser.go:272-283  label contentLengthCR *)
Definition step_content_length_cr (p : parser) (data : bytes) : jump :=
  match data with
  | [] => Ret (RPending (set_p_state eContentLengthCR p))
  | c :: rest => if Byte.eqb c LF then Goto eHeaderKey p rest else Ret (RErr p ErrBadRequest)
  end.

(* parser.go:285-365  label headerValue *)
Definition step_header_value (cfg : hcfg) (p : parser) (data : bytes) : jump :=
  match cut data LF with
  | None =>
      match buf_append (p_val p) data with
      | None => Ret (RErr p ErrHeaderFieldsTooLarge)
      | Some b =>
          if (buf_seglen b >? c_max_value cfg)%Z then Ret (RErr (set_p_val b p) ErrHeaderFieldsTooLarge)
          else Ret (RPending (set_p_state eHeaderValue (set_p_val b p)))
      end
  | Some (v, rest) =>
      match buf_append (p_val p) v with
      | None => Ret (RErr p ErrHeaderFieldsTooLarge)
      | Some b =>
          if (buf_seglen b >? c_max_value cfg)%Z then Ret (RErr (set_p_val b p) ErrHeaderFieldsTooLarge)
          else
            let '(raw, b') := buf_finish b in
            let p := set_p_val b' p in
            let value := trim_prefix_spaces raw in
            match last_byte value with
            | None => Ret RPanic               (* value[len(value)-1], line 311 *)
            | Some c =>
                let value := if Byte.eqb c CR then drop_last value else value in
                Goto eHeaderKey (set_p_req (apply_header cfg (p_hkey p) value (p_req p)) p) rest
            end
      end
  end.

(* parser.go:367-379  label headerValueCRLFCR *)
Definition step_crlfcr (p : parser) (data : bytes) : jump :=
  match data with
  | [] => Ret (RPending (set_p_state eHeaderValueCRLFCR p))
  | c :: rest => if Byte.eqb c LF then Ret (RDone (cleanup p) rest) else Ret (RErr p ErrBadRequest)
  end.

Definition step (cfg : hcfg) (l : pstate) (p : parser) (data : bytes) : jump :=
  match l with
  | eMethod => step_method p data
  | ePath => step_path p data
  | eHeaderKey => step_header_key cfg p data
  | eContentLength => step_content_length p data
  | eContentLengthCR => step_content_length_cr p data
  | eHeaderValue => step_header_value cfg p data
  | eHeaderValueCRLFCR => step_crlfcr p data
  end.

(* Every jump consumes at least one byte of data (L_Parser.v), so [S (length data)] steps
   always suffice. *)
Fixpoint run (cfg : hcfg) (fuel : nat) (l : pstate) (p : parser) (data : bytes) : pres :=
  match fuel with
  | O => RStuck
  | S f => match step cfg l p data with
           | Ret r => r
           | Goto l' p' data' => run cfg f l' p' data'
           end
  end.

(* parser.go:74-97  Parse: dispatch on the saved state *)
Definition parse (cfg : hcfg) (p : parser) (data : bytes) : pres :=
  run cfg (S (List.length data)) (p_state p) p data.

(* Feeding successive reads, as internal/protocol/http1/suit.go:66-75 does while the parser
   answers Pending.  Returns the result and the reads not consumed yet. *)
Fixpoint feed (cfg : hcfg) (p : parser) (reads : list bytes) : pres * list bytes :=
  match reads with
  | [] => (RPending p, [])
  | d :: rest => match parse cfg p d with
                 | RPending p' => feed cfg p' rest
                 | r => (r, rest)
                 end
  end.
