(* http/response.go, internal/response/fields.go, internal/types/attachment.go,
   http/cookie/cookie.go: the response builder. *)
From Verif Require Import M_Base M_Status.

(* http/cookie/cookie.go:5-19.  Expires is a time.Time; what matters to the code is whether
   it is zero and, if not, the text of Expires.In(gmt).Format(time.RFC1123), so that is what
   we keep (package time is not modelled). *)
Record cookie := Cookie {
  ck_name : bytes;
  ck_value : bytes;
  ck_path : bytes;
  ck_domain : bytes;
  ck_expires : option bytes;
  ck_maxage : Z;
  ck_samesite : bytes;
  ck_secure : bool;
  ck_httponly : bool
}.
(* cookie.go:21-23  New *)
Definition cookie_new name value := Cookie name value [] [] None 0 [] false false.
(* cookie.go:30-76  Build and the chainable setters *)
Definition cookie_set_path p c := Cookie (ck_name c) (ck_value c) p (ck_domain c) (ck_expires c) (ck_maxage c) (ck_samesite c) (ck_secure c) (ck_httponly c).
Definition cookie_set_domain d c := Cookie (ck_name c) (ck_value c) (ck_path c) d (ck_expires c) (ck_maxage c) (ck_samesite c) (ck_secure c) (ck_httponly c).
Definition cookie_set_expires e c := Cookie (ck_name c) (ck_value c) (ck_path c) (ck_domain c) e (ck_maxage c) (ck_samesite c) (ck_secure c) (ck_httponly c).
Definition cookie_set_maxage m c := Cookie (ck_name c) (ck_value c) (ck_path c) (ck_domain c) (ck_expires c) m (ck_samesite c) (ck_secure c) (ck_httponly c).
Definition cookie_set_samesite s c := Cookie (ck_name c) (ck_value c) (ck_path c) (ck_domain c) (ck_expires c) (ck_maxage c) s (ck_secure c) (ck_httponly c).
Definition cookie_set_secure s c := Cookie (ck_name c) (ck_value c) (ck_path c) (ck_domain c) (ck_expires c) (ck_maxage c) (ck_samesite c) s (ck_httponly c).
Definition cookie_set_httponly h c := Cookie (ck_name c) (ck_value c) (ck_path c) (ck_domain c) (ck_expires c) (ck_maxage c) (ck_samesite c) (ck_secure c) h.

(* io.Reader as used for attachments: what its successive Read calls return, data and error.
   All calls made while sending one attachment pass a buffer of the same size, so the list of
   outcomes describes any reader, whatever it does internally; an exhausted list is a reader
   that never returns from Read. *)
Inductive rerr := REof | RFail.
Definition rd_events := list (bytes * option rerr).

(* internal/types/attachment.go:8-33.  Content() != nil is expressed by the option type in
   [f_att]; [at_closer]: the reader implements io.Closer; [at_closes] counts Close calls. *)
Record attachment := Att {
  at_events : rd_events;
  at_size : Z;
  at_closer : bool;
  at_closes : nat
}.
(* attachment.go:29-33  Close *)
Definition att_close (a : attachment) : attachment :=
  Att (at_events a) (at_size a) (at_closer a) (if at_closer a then S (at_closes a) else at_closes a).

(* internal/response/fields.go:12-23.  Body contents only, not its memory. *)
Record fields := Fields {
  f_code : code;
  f_status : bytes;
  f_ctype : bytes;
  f_te : bytes;
  f_headers : list (bytes * bytes);
  f_body : bytes;
  f_cookies : list cookie;
  f_att : option attachment
}.
(* fields.go:10 *)
Definition default_content_type : bytes := B "text/html".
(* http/response.go:35-43  NewResponse *)
Definition new_response : fields := Fields 200%N [] default_content_type [] [] [] [] None.
(* internal/response/fields.go:25-34  Clear; http/response.go:227-230; http/request.go:141-147
   Respond *)
Definition fields_clear (f : fields) : fields :=
  let f := Fields 200%N (f_status f) (f_ctype f) (f_te f) (f_headers f) (f_body f) (f_cookies f) (f_att f) in
  let f := Fields (f_code f) [] (f_ctype f) (f_te f) (f_headers f) (f_body f) (f_cookies f) (f_att f) in
  let f := Fields (f_code f) (f_status f) default_content_type (f_te f) (f_headers f) (f_body f) (f_cookies f) (f_att f) in
  let f := Fields (f_code f) (f_status f) (f_ctype f) [] (f_headers f) (f_body f) (f_cookies f) (f_att f) in
  let f := Fields (f_code f) (f_status f) (f_ctype f) (f_te f) [] (f_body f) (f_cookies f) (f_att f) in
  let f := Fields (f_code f) (f_status f) (f_ctype f) (f_te f) (f_headers f) [] (f_cookies f) (f_att f) in
  let f := Fields (f_code f) (f_status f) (f_ctype f) (f_te f) (f_headers f) (f_body f) [] (f_att f) in
  Fields (f_code f) (f_status f) (f_ctype f) (f_te f) (f_headers f) (f_body f) (f_cookies f) None.

(* http/response.go:48-71, 107-117, 163-166, 169-172: the plain setters *)
Definition set_code c f := Fields c (f_status f) (f_ctype f) (f_te f) (f_headers f) (f_body f) (f_cookies f) (f_att f).
Definition set_status s f := Fields (f_code f) s (f_ctype f) (f_te f) (f_headers f) (f_body f) (f_cookies f) (f_att f).
Definition set_ctype t f := Fields (f_code f) (f_status f) t (f_te f) (f_headers f) (f_body f) (f_cookies f) (f_att f).
Definition set_te t f := Fields (f_code f) (f_status f) (f_ctype f) t (f_headers f) (f_body f) (f_cookies f) (f_att f).
Definition set_rheaders h f := Fields (f_code f) (f_status f) (f_ctype f) (f_te f) h (f_body f) (f_cookies f) (f_att f).
Definition set_rbody b f := Fields (f_code f) (f_status f) (f_ctype f) (f_te f) (f_headers f) b (f_cookies f) (f_att f).
Definition set_cookies c f := Fields (f_code f) (f_status f) (f_ctype f) (f_te f) (f_headers f) (f_body f) c (f_att f).
Definition set_att a f := Fields (f_code f) (f_status f) (f_ctype f) (f_te f) (f_headers f) (f_body f) (f_cookies f) a.

(* http/response.go:75-91  Header; None = index out of range panic (values[0] with no values) *)
Definition resp_header (key : bytes) (values : list bytes) (f : fields) : option fields :=
  if equal_fold key (B "content-type") then
    match values with [] => None | v :: _ => Some (set_ctype v f) end
  else if equal_fold key (B "transfer-encoding") then
    match values with [] => None | v :: _ => Some (set_te v f) end
  else Some (set_rheaders (f_headers f ++ map (fun v => (key, v)) values) f).
(* http/response.go:97-105  Headers; the list is the map in the order the loop visits it *)
Fixpoint resp_headers (hs : list (bytes * list bytes)) (f : fields) : option fields :=
  match hs with
  | [] => Some f
  | (k, vs) :: hs' => match resp_header k vs f with Some f' => resp_headers hs' f' | None => None end
  end.
(* http/response.go:120-123  Write *)
Definition resp_write (b : bytes) (f : fields) : fields := set_rbody (f_body f ++ b) f.
(* err.Error(); io.EOF prints as "EOF" *)
Definition err_text (e : goerr) : bytes :=
  match e with EHttp h => he_msg h | EEOF => B "EOF" | EOther m => m end.
(* http/response.go:201-219  Error *)
Definition resp_error (err : option goerr) (codes : list code) (f : fields) : fields :=
  match err with
  | None => f
  | Some (EHttp h) => set_code (he_code h) f
  | Some e => set_rbody (err_text e) (set_code (match codes with c :: _ => c | [] => 500%N end) f)
  end.
(* http/response.go:176-195  TryJSON and JSON.  The encoder is external; [pieces] is what it
   wrote to the response, [err] what Flush returned. *)
Definition resp_try_json (pieces : list bytes) (err : option goerr) (f : fields) : fields * option goerr :=
  (set_ctype (B "application/json") (fold_left (fun g b => resp_write b g) pieces (set_rbody [] f)), err).
Definition resp_json (pieces : list bytes) (err : option goerr) (f : fields) : fields :=
  let '(g, e) := resp_try_json pieces err f in resp_error e [] g.

(* http/mime/exts.go:3-29  Extension (a map; missing keys give "") *)
Definition mime_table : list (bytes * bytes) :=
  [(B ".avif", B "image/avif"); (B ".css", B "text/css; charset=utf-8"); (B ".gif", B "image/gif");
   (B ".htm", B "text/html; charset=utf-8"); (B ".html", B "text/html; charset=utf-8");
   (B ".jpeg", B "image/jpeg"); (B ".jpg", B "image/jpeg"); (B ".js", B "text/javascript; charset=utf-8");
   (B ".json", B "application/json"); (B ".mjs", B "text/javascript; charset=utf-8");
   (B ".pdf", B "application/pdf"); (B ".png", B "image/png"); (B ".svg", B "image/svg+xml");
   (B ".wasm", B "application/wasm"); (B ".webp", B "image/webp"); (B ".xml", B "text/xml; charset=utf-8");
   (B ".gz", B "application/gzip"); (B ".sql", B "application/sql"); (B ".tzif", B "application/tzif");
   (B ".yaml", B "application/yaml"); (B ".xfdf", B "application/xfdf"); (B ".zip", B "application/zip");
   (B ".zlib", B "application/zlib"); (B ".zstd", B "application/zstd");
   (B ".ico", B "image/vnd.microsoft.icon")].
Fixpoint mime_find (t : list (bytes * bytes)) (ext : bytes) : bytes :=
  match t with [] => [] | (e, m) :: t' => if beqb e ext then m else mime_find t' ext end.
Definition mime_extension := mime_find mime_table.
(* path/filepath.Ext on Unix (standard library): the suffix from the last dot of the last
   path element, "" if that element has no dot *)
Definition file_ext (p : bytes) : bytes :=
  let base := match cut_last p x2f with Some (_, b) => b | None => p end in
  match cut_last base x2e with Some (_, e) => x2e :: e | None => [] end.

(* The file system as TryFile sees it: os.Open and fd.Stat on one path.  The file system
   itself (path resolution, links) is outside the model. *)
Inductive file_res :=
| FNoOpen                                  (* os.Open fails *)
| FNoStat                                  (* Stat fails *)
| FDir                                     (* a directory *)
| FFile (events : rd_events) (size : Z).   (* a file: what reading it yields, and its size *)
(* descriptors: how many were opened, how many closed here *)
(* http/response.go:126-148  TryFile.  The third component: the descriptor was opened but
   neither closed nor handed over. *)
Definition resp_try_file (path : bytes) (r : file_res) (f : fields) : fields * option goerr * bool :=
  match r with
  | FNoOpen => (f, Some (EHttp ErrNotFound), false)
  | FNoStat => (f, Some (EHttp ErrInternalServerError), true)
  | FDir => (f, Some (EHttp ErrNotFound), true)
  | FFile ev size =>
      let t := mime_extension (file_ext path) in
      let t := match t with [] => B "application/octet-stream" | _ => t end in
      (set_att (Some (Att ev size true 0)) (set_ctype t f), None, false)
  end.
(* http/response.go:152-159  File *)
Definition resp_file (path : bytes) (r : file_res) (f : fields) : fields :=
  match resp_try_file path r f with
  | (g, Some e, _) => resp_error (Some e) [] g
  | (g, None, _) => g
  end.

(* every public builder call *)
Inductive rop :=
| RCode (c : code) | RStatus (s : bytes) | RContentType (t : bytes) | RTransferEncoding (t : bytes)
| RHeader (k : bytes) (vs : list bytes) | RHeaders (hs : list (bytes * list bytes))
| RBody (b : bytes)                                 (* String and Bytes, lines 108-117 *)
| RWrite (b : bytes) | RFile (p : bytes) (r : file_res) | RAttachment (a : option attachment)
| RCookie (cs : list cookie) | RJson (ps : list bytes) (e : option goerr)
| RError (e : option goerr) (cs : list code) | RClear.
Definition resp_op (o : rop) (f : fields) : option fields :=
  match o with
  | RCode c => Some (set_code c f)
  | RStatus s => Some (set_status s f)
  | RContentType t => Some (set_ctype t f)
  | RTransferEncoding t => Some (set_te t f)
  | RHeader k vs => resp_header k vs f
  | RHeaders hs => resp_headers hs f
  | RBody b => Some (set_rbody b f)
  | RWrite b => Some (resp_write b f)
  | RFile p r => Some (resp_file p r f)
  | RAttachment a => Some (set_att a f)
  | RCookie cs => Some (set_cookies (f_cookies f ++ cs) f)
  | RJson ps e => Some (resp_json ps e f)
  | RError e cs => Some (resp_error e cs f)
  | RClear => Some (fields_clear f)
  end.
Fixpoint resp_ops (os : list rop) (f : fields) : option fields :=
  match os with
  | [] => Some f
  | o :: os' => match resp_op o f with Some g => resp_ops os' g | None => None end
  end.
