(* Specification for C95: a server of files, as text. *)
From Verif Require Import M_Base M_Status M_Method M_Proto M_KeyValue M_Request M_Parser M_Client M_Response M_Serializer M_Suit M_Path M_Router M_Examples
  S_Static S_KeyValue S_Head S_Response S_Chunk S_Conn S_Router S_Examples.

(* media types and the endings of the names of such files *)
Definition media_types : list (bytes * list bytes) :=
  [(B "image/avif", [B "avif"]); (B "image/gif", [B "gif"]); (B "image/jpeg", [B "jpg"; B "jpeg"]); (B "image/png", [B "png"]); (B "image/webp", [B "webp"]);
   (B "image/svg+xml", [B "svg"]); (B "image/vnd.microsoft.icon", [B "ico"]);
   (B "text/html; charset=utf-8", [B "html"; B "htm"]); (B "text/css; charset=utf-8", [B "css"]);
   (B "text/javascript; charset=utf-8", [B "js"; B "mjs"]); (B "text/xml; charset=utf-8", [B "xml"]);
   (B "application/json", [B "json"]); (B "application/yaml", [B "yaml"]); (B "application/sql", [B "sql"]); (B "application/pdf", [B "pdf"]);
   (B "application/xfdf", [B "xfdf"]); (B "application/tzif", [B "tzif"]); (B "application/wasm", [B "wasm"]); (B "application/gzip", [B "gz"]);
   (B "application/zip", [B "zip"]); (B "application/zlib", [B "zlib"]); (B "application/zstd", [B "zstd"])].
Definition Registered (ext t : bytes) : Prop := exists exts, In (t, exts) media_types /\ In ext exts.
(* the ending of a name: what is behind its last dot, in its last element *)
Definition Ending (path ext : bytes) : Prop := exists a, path = a ++ x2e :: ext /\ ~ In x2e ext /\ ~ In x2f ext.
Inductive MediaType (path : bytes) : bytes -> Prop :=
| Mt_known : forall ext t, Ending path ext -> Registered ext t -> MediaType path t
| Mt_other : (forall ext t, Ending path ext -> ~ Registered ext t) -> MediaType path (B "application/octet-stream").

(* a file with this content: reading returns it in pieces, each at most as long as the buffer
   offered, and then EOF; its size is the length *)
Definition Holds (buff : Z) (r : file_res) (content : bytes) : Prop :=
  exists pieces more, r = FFile (reader_of pieces [] ++ more) (len content) /\ concat pieces = content /\
    Forall (fun d => (List.length d <= Z.to_nat (Z.max 16 buff))%nat) pieces.
Definition Readable (buff : Z) (r : file_res) : Prop := r = FNoOpen \/ r = FNoStat \/ r = FDir \/ exists c, Holds buff r c.
(* an answer without a text of its own *)
Definition bare_page (p : proto) (status : bytes) : bytes :=
  lines [version_of p ++ B " " ++ status; B "Accept-Encodings: identity"; B "Content-Type: text/html"; B "Content-Length: 0"; []].
(* Which file a path asks for, when the files of [dir] are under [prefix].  The last case is the
   defect of C38: the byte behind the prefix is not looked at. *)
Inductive Asks (prefix dir path : bytes) : bytes -> Prop :=
| As_root : forall rest, prefix = [SLASH] -> path = SLASH :: rest -> Asks prefix dir path (dir ++ SLASH :: rest)
| As_below : forall rest, prefix <> [SLASH] -> path = prefix ++ SLASH :: rest -> Asks prefix dir path (dir ++ SLASH :: rest)
| As_itself : prefix <> [SLASH] -> path = prefix -> Asks prefix dir path dir
| As_neighbour : forall c rest, prefix <> [SLASH] -> path = prefix ++ c :: rest -> c <> SLASH -> Asks prefix dir path (dir ++ SLASH :: rest).
(* the answer to a request; the flag: a file is sent *)
Inductive FileText (buff : Z) (fs : bytes -> file_res) (prefix dir : bytes) (p : proto) (m : method) (path : bytes) : bool -> bytes -> Prop :=
| Ft_file : forall file c t, Asks prefix dir path file -> NoDots file -> Holds buff (fs file) c -> c <> [] -> MediaType file t ->
    FileText buff fs prefix dir p m path true
      (lines [version_of p ++ B " 200 OK"; B "Accept-Encodings: identity"; B "Content-Type: " ++ t; B "Content-Length: " ++ itoa (len c); []] ++
       match m with HEAD => [] | _ => c end)
(* an empty file is sent in chunks, of which there are none *)
| Ft_empty : forall file t ws, Asks prefix dir path file -> NoDots file -> Holds buff (fs file) [] -> MediaType file t -> Chunked ws [] ->
    FileText buff fs prefix dir p m path true
      (lines [version_of p ++ B " 200 OK"; B "Accept-Encodings: identity"; B "Content-Type: " ++ t; B "Transfer-Encoding: chunked"; []] ++
       match m with HEAD => [] | _ => ws end)
| Ft_none : forall file, Asks prefix dir path file -> NoDots file -> fs file = FNoOpen \/ fs file = FDir ->
    FileText buff fs prefix dir p m path false (bare_page p (B "404 Not Found"))
| Ft_broken : forall file, Asks prefix dir path file -> NoDots file -> fs file = FNoStat ->
    FileText buff fs prefix dir p m path false (bare_page p (B "500 Internal Server Error"))
| Ft_dots : forall file, Asks prefix dir path file -> ~ NoDots file -> FileText buff fs prefix dir p m path false (bare_page p (B "404 Not Found"))
| Ft_elsewhere : ~ Prefix prefix path -> FileText buff fs prefix dir p m path false (bare_page p (B "404 Not Found")).

(* one answer after the other; a connection is kept for more after a file, whatever the client
   asked for (C24) *)
Inductive FileTalk (answer : req -> bool -> bytes -> Prop) : list req -> list bytes -> bool -> Prop :=
| Fk_end : FileTalk answer [] [] true
| Fk_next : forall q reqs file text texts o, answer q file text -> file = true \/ keeps_open (q_head q) = true -> FileTalk answer reqs texts o ->
    FileTalk answer (q :: reqs) (text :: texts) o
| Fk_last : forall q reqs text, answer q false text -> keeps_open (q_head q) = false -> FileTalk answer (q :: reqs) [text] false.
(* a directory, however it is written *)
Definition DirOf (root dir : bytes) : Prop := root = dir ++ [SLASH] \/ (root = dir /\ last_byte root <> Some SLASH).
