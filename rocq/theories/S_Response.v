(* What a response message is, read the way a strict HTTP client reads it, independently of
   how the code renders it. *)
From Verif Require Import M_Base M_Status M_Method M_Proto M_Client M_Request M_Response M_Serializer S_KeyValue.

(* ---- reading ---- *)
(* one line ended by CR LF; a CR or LF anywhere else is an error *)
Fixpoint cut_line (l : bytes) : option (bytes * bytes) :=
  match l with
  | [] => None
  | x :: l' =>
      if Byte.eqb x CR then match l' with y :: l2 => if Byte.eqb y LF then Some ([], l2) else None | [] => None end
      else if Byte.eqb x LF then None
      else match cut_line l' with Some (a, b) => Some (x :: a, b) | None => None end
  end.
(* lines up to and including the first empty one *)
Fixpoint cut_lines (fuel : nat) (l : bytes) : option (list bytes * bytes) :=
  match fuel with
  | O => None
  | S f => match cut_line l with
           | None => None
           | Some ([], rest) => Some ([], rest)
           | Some (ln, rest) => match cut_lines f rest with
                                | Some (ls, r) => Some (ln :: ls, r)
                                | None => None
                                end
           end
  end.
Fixpoint before_byte (c : byte) (l : bytes) : option (bytes * bytes) :=
  match l with
  | [] => None
  | x :: l' => if Byte.eqb x c then Some ([], l')
               else match before_byte c l' with Some (a, b) => Some (x :: a, b) | None => None end
  end.
(* optional white space around a field value *)
Definition is_ows (b : byte) : bool := Byte.eqb b x20 || Byte.eqb b x09.
Fixpoint ltrim (l : bytes) : bytes :=
  match l with x :: l' => if is_ows x then ltrim l' else l | [] => [] end.
Definition trim (l : bytes) : bytes := rev (ltrim (rev (ltrim l))).
Definition read_field (ln : bytes) : option (bytes * bytes) :=
  match before_byte x3a ln with
  | Some (x :: n, v) => Some (x :: n, trim v)
  | _ => None
  end.
Fixpoint read_fields (ls : list bytes) : option (list entry) :=
  match ls with
  | [] => Some []
  | l :: ls' => match read_field l, read_fields ls' with
                | Some e, Some es => Some (e :: es)
                | _, _ => None
                end
  end.
Definition dec_digit (b : byte) : option N :=
  if (48 <=? bN b)%N && (bN b <=? 57)%N then Some (bN b - 48)%N else None.
Definition dec_number (l : bytes) : option N :=
  match l with
  | [] => None
  | _ => fold_left (fun a c => match a, dec_digit c with Some n, Some v => Some (10 * n + v)%N | _, _ => None end)
                   l (Some 0%N)
  end.
(* version SP three digits SP reason *)
Definition read_start (ln : bytes) : option (bytes * N * bytes) :=
  match before_byte SP ln with
  | Some (v, a :: b :: c :: s :: reason) =>
      if Byte.eqb s SP then
        match dec_number [a; b; c] with Some n => Some (v, n, reason) | None => None end
      else None
  | _ => None
  end.

Record message := Msg {
  m_version : bytes; m_code : N; m_reason : bytes; m_fields : list entry; m_body : bytes
}.
(* responses that never have a body *)
Definition bodyless (c : N) : bool := (c <? 200)%N || (c =? 204)%N || (c =? 304)%N.
(* how long the body is: one Content-Length and no Transfer-Encoding, or the reader gives up *)
Definition body_length (fs : list entry) : option N :=
  match all_values fs (B "transfer-encoding"), all_values fs (B "content-length") with
  | [], [v] => dec_number v
  | _, _ => None
  end.
(* the first response on a stream, and what follows it; [head]: the request was HEAD *)
Definition read_response (head : bool) (l : bytes) : option (message * bytes) :=
  match cut_lines (S (List.length l)) l with
  | Some (start :: ls, rest) =>
      match read_start start, read_fields ls with
      | Some (v, c, reason), Some fs =>
          if head || bodyless c then Some (Msg v c reason fs [], rest)
          else match body_length fs with
               | Some n => if (N.of_nat (List.length rest) <? n)%N then None
                           else Some (Msg v c reason fs (firstn (N.to_nat n) rest), skipn (N.to_nat n) rest)
               | None => None
               end
      | _, _ => None
      end
  | _ => None
  end.
(* the number of header lines a reader sees *)
Definition header_lines (l : bytes) : option nat :=
  match cut_lines (S (List.length l)) l with
  | Some (_ :: ls, _) => Some (List.length ls)
  | _ => None
  end.

(* ---- text that cannot be mistaken for structure ---- *)
Definition clean (b : bytes) : Prop := ~ In CR b /\ ~ In LF b.
Definition clean_name (n : bytes) : Prop := clean n /\ n <> [] /\ ~ In x3a n.
Definition clean_field (e : entry) : Prop := clean_name (fst e) /\ clean (snd e).
Definition clean_cookie (c : cookie) : Prop :=
  clean (ck_name c) /\ clean (ck_value c) /\ clean (ck_path c) /\ clean (ck_domain c) /\
  clean (match ck_expires c with Some e => e | None => [] end) /\ clean (ck_samesite c).
Definition Renderable (f : fields) : Prop :=
  Forall clean_field (f_headers f) /\ clean (f_ctype f) /\ clean (f_te f) /\ Forall clean_cookie (f_cookies f).
(* names that decide the framing *)
Definition framing_name (n : bytes) : Prop := same_key n (B "content-length") \/ same_key n (B "transfer-encoding").

(* ---- cookies ---- *)
Fixpoint join (sep : bytes) (l : list bytes) : bytes :=
  match l with
  | [] => []
  | [x] => x
  | x :: l' => x ++ sep ++ join sep l'
  end.
Definition opt (b : bool) {A} (x : A) : list A := if b then [x] else [].
Definition nonempty (b : bytes) : bool := match b with [] => false | _ => true end.
(* the attributes that were set, RFC 6265, with the given name for the Max-Age attribute *)
Definition attributes (max_age : bytes) (c : cookie) : list (bytes * option bytes) :=
  opt (nonempty (ck_path c)) (B "Path", Some (ck_path c)) ++
  opt (nonempty (ck_domain c)) (B "Domain", Some (ck_domain c)) ++
  (match ck_expires c with Some e => [(B "Expires", Some e)] | None => [] end) ++
  opt (negb (ck_maxage c =? 0)%Z) (max_age, Some (itoa (Z.max 0 (ck_maxage c)))) ++
  opt (nonempty (ck_samesite c)) (B "SameSite", Some (ck_samesite c)) ++
  opt (ck_secure c) (B "Secure", None) ++
  opt (ck_httponly c) (B "HttpOnly", None).
Definition attribute_text (a : bytes * option bytes) : bytes :=
  match snd a with Some v => fst a ++ B "=" ++ v | None => fst a end.
Definition set_cookie_text (max_age : bytes) (c : cookie) : bytes :=
  join (B "; ") ((ck_name c ++ B "=" ++ ck_value c) :: map attribute_text (attributes max_age c)).
(* reading a Set-Cookie value the way a browser does: split at ';', trim, split at '=' *)
Fixpoint split_at (c : byte) (l : bytes) : list bytes :=
  match l with
  | [] => [[]]
  | x :: l' => if Byte.eqb x c then [] :: split_at c l'
               else match split_at c l' with a :: r => (x :: a) :: r | [] => [[x]] end
  end.
Definition read_attribute (l : bytes) : bytes * option bytes :=
  match before_byte x3d l with
  | Some (n, v) => (trim n, Some (trim v))
  | None => (trim l, None)
  end.
Definition read_set_cookie (l : bytes) : option (bytes * bytes * list (bytes * option bytes)) :=
  match split_at x3b l with
  | [] => None
  | p :: as_ => match before_byte x3d p with
                | Some (n, v) => Some (trim n, trim v, map read_attribute as_)
                | None => None
                end
  end.
(* cookie text that survives this reading *)
Definition plain_text (b : bytes) : Prop := ~ In x3b b /\ trim b = b.
Definition PlainCookie (c : cookie) : Prop :=
  plain_text (ck_name c) /\ ~ In x3d (ck_name c) /\ plain_text (ck_value c) /\ plain_text (ck_path c) /\
  plain_text (ck_domain c) /\ plain_text (match ck_expires c with Some e => e | None => [] end) /\
  plain_text (ck_samesite c).

(* ---- the life of a serializer on one connection ---- *)
Definition names (f : fields) : list bytes := map fst (f_headers f).
(* [past]: all header names rendered so far *)
Inductive Served (fbs : Z) (defs : list entry) : list bytes -> serializer -> Prop :=
| Sv_new : Served fbs defs [] (new_serializer fbs defs)
| Sv_pre : forall past s p f, Served fbs defs past s -> Served fbs defs (past ++ names f) (pre_write p f s)
| Sv_write : forall past s p r f c res s' c' f', Served fbs defs past s ->
    write_response p r f s c = (res, s', c', f') -> Served fbs defs (past ++ names f) s'.
(* is there a name among ns equal to n up to case? *)
Definition named (ns : list bytes) (n : bytes) : bool := existsb (fun m => same_keyb m n) ns.
Fixpoint distinct_names (l : list entry) : Prop :=
  match l with
  | [] => True
  | (k, _) :: l' => named (map fst l') k = false /\ distinct_names l'
  end.
(* the defaults not named in ns *)
Definition remaining (ns : list bytes) (defs : list entry) : list entry :=
  filter (fun d => negb (named ns (fst d))) defs.
(* all fields of a plain response; [past] are names used on the connection before *)
Definition sent_fields (defs : list entry) (past : list bytes) (f : fields) : list entry :=
  f_headers f ++ remaining (past ++ names f) defs ++
  [(B "Content-Type", f_ctype f)] ++
  (match f_te f with [] => [] | t => [(B "Transfer-Encoding", t)] end) ++
  map (fun c => (B "Set-Cookie", set_cookie_text (B "MaxAge") c)) (f_cookies f) ++
  [(B "Content-Length", itoa (len (f_body f)))].
Definition trimmed (e : entry) : entry := (fst e, trim (snd e)).

(* version SP code SP reason CRLF, one line per field, CRLF, body *)
Definition field_text (e : entry) : bytes := fst e ++ B ": " ++ snd e ++ CRLF.
Definition response_text (version code reason : bytes) (fs : list entry) (body : bytes) : bytes :=
  version ++ [SP] ++ code ++ [SP] ++ reason ++ CRLF ++ concat (map field_text fs) ++ CRLF ++ body.
Definition version_of (p : proto) : bytes :=
  match p with HTTP10 => B "HTTP/1.0" | HTTP11 => B "HTTP/1.1" | HTTP2 => B "HTTP/2" | PUnknown => [] end.

(* the next write on the connection succeeds / all of them do *)
Definition write_ok (c : client) : Prop := hd None (cl_wres c) = None.
Definition writes_ok (c : client) : Prop := Forall (fun w => w = None) (cl_wres c).

(* ---- standard reason phrases (IANA registry and its earlier editions) ---- *)
Definition standard_phrases : list (N * bytes) :=
  [(100, B "Continue"); (101, B "Switching Protocols"); (102, B "Processing"); (103, B "Early Hints");
   (200, B "OK"); (201, B "Created"); (202, B "Accepted"); (203, B "Non-Authoritative Information");
   (204, B "No Content"); (205, B "Reset Content"); (206, B "Partial Content"); (207, B "Multi-Status");
   (208, B "Already Reported"); (226, B "IM Used"); (300, B "Multiple Choices");
   (301, B "Moved Permanently"); (302, B "Found"); (303, B "See Other"); (304, B "Not Modified");
   (305, B "Use Proxy"); (307, B "Temporary Redirect"); (308, B "Permanent Redirect");
   (400, B "Bad Request"); (401, B "Unauthorized"); (402, B "Payment Required"); (403, B "Forbidden");
   (404, B "Not Found"); (405, B "Method Not Allowed"); (406, B "Not Acceptable");
   (407, B "Proxy Authentication Required"); (408, B "Request Timeout"); (409, B "Conflict");
   (410, B "Gone"); (411, B "Length Required"); (412, B "Precondition Failed");
   (413, B "Request Entity Too Large"); (413, B "Content Too Large"); (413, B "Payload Too Large");
   (414, B "Request URI Too Long"); (414, B "URI Too Long"); (415, B "Unsupported Media Type");
   (416, B "Requested Range Not Satisfiable"); (416, B "Range Not Satisfiable");
   (417, B "Expectation Failed"); (418, B "I'm a teapot"); (421, B "Misdirected Request");
   (422, B "Unprocessable Entity"); (422, B "Unprocessable Content"); (423, B "Locked");
   (424, B "Failed Dependency"); (425, B "Too Early"); (426, B "Upgrade Required");
   (428, B "Precondition Required"); (429, B "Too Many Requests");
   (431, B "Request Header Fields Too Large"); (451, B "Unavailable For Legal Reasons");
   (500, B "Internal Server Error"); (501, B "Not Implemented"); (502, B "Bad Gateway");
   (503, B "Service Unavailable"); (504, B "Gateway Timeout"); (505, B "HTTP Version Not Supported");
   (506, B "Variant Also Negotiates"); (507, B "Insufficient Storage"); (508, B "Loop Detected");
   (510, B "Not Extended"); (511, B "Network Authentication Required")]%N.

(* ---- attachments ---- *)
(* a reader that yields the given pieces, the last one together with EOF or followed by it *)
Definition reader_of (pieces : list bytes) (last : bytes) : rd_events :=
  map (fun d => (d, None)) pieces ++ [(last, Some REof)].

(* the reason phrase that is sent: the standard one, except that 101 lacks its last letter;
   a custom one is never sent *)
Definition sent_reason (f : fields) : bytes :=
  if (f_code f =? 101)%N && negb (nonempty (f_status f)) then B "Switching Protocol" else status_text (f_code f).

(* the fields of a response with an attachment (no cookies among them) *)
Definition attachment_fields (defs : list entry) (past : list bytes) (f : fields) (a : attachment) : list entry :=
  f_headers f ++ remaining (past ++ names f) defs ++ [(B "Content-Type", f_ctype f)] ++
  (if (0 <? at_size a)%Z
   then (match f_te f with [] => [] | t => [(B "Transfer-Encoding", t)] end) ++ [(B "Content-Length", itoa (at_size a))]
   else [(B "Transfer-Encoding", B "chunked")]).
(* a piece a reader can return into the buffer of a chunked transfer of this size; sizes of 2^32
   and more do not fit the eight digits reserved for them *)
Definition fits (size : nat) (d : bytes) : Prop :=
  (List.length d + 12 <= size)%nat /\ (N.of_nat (List.length d) < 4294967296)%N.
