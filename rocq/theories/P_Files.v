(* C95: a server of files. *)
From Verif Require Import M_Base M_Config M_Status M_Method M_Proto M_KeyValue M_Query M_Request M_Parser M_Client M_Body
  M_Response M_Serializer M_Suit M_Path M_Radix M_Router M_Static M_ServeHttp1 M_Examples
  S_Static S_KeyValue S_Chunk S_Head S_Parser S_Body S_Response S_Conn S_Router S_Serve S_ServeHttp1 S_Examples S_Files
  L_Base L_Chunk L_Conn3 L_ConnProps L_Router5 L_Serve L_ServeEx L_Static L_Examples L_Examples2 L_Files L_Files2.

(* C95: the content type of a file is the one its ending is registered for *)
Theorem C95_content_type : forall path ev size f t, f_ctype (resp_file path (FFile ev size) f) = t <-> MediaType path t.
Proof. intros path ev size f t. exact (file_type_media path t). Qed.
Print Assumptions C95_content_type.
(* C95: ... which is one type, and always there *)
Theorem C95_content_type_one : forall path, exists t, MediaType path t /\ forall t', MediaType path t' -> t' = t.
Proof.
  intros path. exists (file_type path). split; [apply file_type_media; reflexivity|]. intros t' H. apply file_type_media in H. congruence.
Qed.
Print Assumptions C95_content_type_one.
(* C95: a path asks for at most one file; and for one exactly if the prefix matches *)
Theorem C95_asks : forall prefix dir path, Rooted prefix -> last_byte prefix <> Some SLASH \/ prefix = [SLASH] ->
  ((exists file, Asks prefix dir path file) <-> Prefix prefix path) /\ (forall a b, Asks prefix dir path a -> Asks prefix dir path b -> a = b).
Proof.
  intros prefix dir path _ HS. split; [|apply asks_one]. split.
  - intros (file & [rest -> ->|rest _ ->|_ ->|c rest _ -> _]); [exists rest; reflexivity|eexists; reflexivity|exists []; symmetry; apply app_nil_r|eexists; reflexivity].
  - intros (s & ->). destruct (list_eq_dec Byte.byte_eq_dec prefix [SLASH]) as [->|N]; [eexists; apply As_root; reflexivity|].
    destruct s as [|c s]; [eexists; apply As_itself; [exact N|apply app_nil_r]|].
    destruct (Byte.byte_eq_dec c SLASH) as [->|C]; eexists; [apply As_below; [exact N|reflexivity]|eapply As_neighbour; [exact N|reflexivity|exact C]].
Qed.
Print Assumptions C95_asks.

(* C95: the exact bytes, for all requests, however they come in.  The prefix has to be one that
   Clean does not change; the files are the same throughout. *)
Theorem C95_files : forall CS cparse encoded fresh inside new_chunked, DecoderOk CS cparse encoded fresh inside -> (forall n, fresh (new_chunked n)) ->
  let c := app_config [] in
  forall defs, default_headers c = Some defs ->
  forall W (pget : W -> pbuf) pput fs prefix root dir o x,
  static_call prefix root pget pput (fun _ p => resp_file p (fs p) new_response) [] = Some o -> Running [([], o)] x ->
  path_clean prefix = prefix -> SlashPath prefix -> prefix = [SLASH] \/ last_byte prefix <> Some SLASH -> DirOf root dir -> SlashPath root ->
  (forall p, Readable (response_buff c) (fs p)) ->
  forall reqs tail enc cl w, Forall (GoodRequest encoded (limits_of c) (body_max_size c)) reqs -> Unfinished (limits_of c) tail ->
  writes_ok cl -> stream cl = concat (map wire reqs) ++ tail ->
  exists n texts still_open,
    FileTalk (fun q => let h := q_head q in FileText (response_buff c) fs prefix dir (h_proto h) (h_method h) (normalize (h_decoded h))) reqs texts still_open /\
    forall fuel, (n <= fuel)%nat -> exists st,
      http1 cparse new_chunked (on_request x) (on_error x) c defs enc fuel cl w = (if still_open then EndRead else EndWrite, st) /\
      concat (cl_out (k_client st)) = concat (cl_out cl) ++ concat texts.
Proof.
  intros CS cparse encoded fresh inside new_chunked D F c defs Hdf W pget pput fs prefix root dir o x Ho HRn Hc HP Hl Hd HR Hfs reqs tail enc cl w HG HU Hw Hst.
  assert (defs = std_defs) as -> by (injection Hdf as <-; reflexivity).
  destruct (end_to_end CS cparse encoded fresh inside D (body_max_size std) eq_refl (header_cfg std) (url_maximal std) (keyspace_maximal std) (valspace_maximal std) (response_buff std) std_defs std_distinct
    W [([], o)] x HRn (server_plain W pget pput fs prefix root o Ho Hc HP Hl) (server_ordinary W pget pput fs prefix root o Ho Hc HP Hl Hfs) reqs []
    (http1_conn new_chunked std std_defs enc cl w) tail (static_routable _ _ _ (server_static W pget pput fs prefix root o Ho Hc HP Hl)) (new_between CS (world W) fresh _ _ _ _ std_defs enc _ cl w (F _) Hw) HG HU Hst)
    as (n & outs & closed & st1 & H1 & H2 & H3).
  destruct (server_talk W pget pput fs prefix root dir o Ho Hc HP Hl Hd HR Hfs _ _ _ _ _ _ H1 eq_refl) as (texts & so & I1 & I2 & I3).
  exists n, texts, so. split; [exact I1|]. intros fuel Hf. unfold http1. change c with std. rewrite (H3 fuel Hf).
  set (e := match closed with None => EndRead | Some _ => EndWrite end).
  assert (E : e = if so then EndRead else EndWrite).
  { unfold e. destruct closed as [l|]; [destruct so; [discriminate (proj2 I3 eq_refl)|reflexivity]|rewrite (proj1 I3 eq_refl); reflexivity]. }
  destruct (silent_close CS cparse (body_max_size std) W [([], o)] x e st1 HRn (server_silent W pget pput fs prefix root o Ho)) as (st' & E1 & E2 & _).
  exists st'. rewrite E1, E2, H2, E, concat_app, I2. split; reflexivity.
Qed.
Print Assumptions C95_files.
(* C95: letters count: the ending ".HTML" is not registered *)
Theorem C95_capital_letters : MediaType (B "index.HTML") (B "application/octet-stream") /\ MediaType (B "index.html") (B "text/html; charset=utf-8").
Proof. split; apply file_type_media; vm_compute; reflexivity. Qed.
Print Assumptions C95_capital_letters.

(* a directory with a page, an empty file and a directory *)
Definition ex_fs (p : bytes) : file_res :=
  if beqb p (B "/srv/a.html") then FFile [(B "<p>", None); (B "hi", None); ([], Some REof)] 5
  else if beqb p (B "/srv/none") then FFile [([], Some REof)] 0 else if beqb p (B "/srv") then FDir else FNoOpen.
Lemma ex_fs_readable : forall p, Readable (response_buff (app_config [])) (ex_fs p).
Proof.
  intros p. unfold ex_fs. destruct (beqb p (B "/srv/a.html")).
  - right. right. right. exists (B "<p>hi"), [B "<p>"; B "hi"], []. split; [reflexivity|]. split; [reflexivity|].
    apply Forall_cons; [apply Nat.leb_le; vm_compute; reflexivity|]. apply Forall_cons; [apply Nat.leb_le; vm_compute; reflexivity|apply Forall_nil].
  - destruct (beqb p (B "/srv/none")); [right; right; right; exists [], [], []; repeat split; constructor|]. destruct (beqb p (B "/srv")); [right; right; left; reflexivity|left; reflexivity].
Qed.
Definition ex_static : option (rop pbuf) := static_call (B "/f") (B "/srv") (fun b => b) (fun b _ => b) (fun _ p => resp_file p (ex_fs p) new_response) [].
Definition ex_run (x : runtime pbuf) : ending * bytes :=
  let net := [(crlf_lines [B "GET /f/a.html HTTP/1.1"; B "Connection: close"; []] ++ crlf_lines [B "HEAD /f/a.html HTTP/1.0"; []], None); (crlf_lines [B "GET /f/none HTTP/1.1"; []] ++
                crlf_lines [B "GET /f/ HTTP/1.1"; []] ++ crlf_lines [B "GET /f/../x HTTP/1.1"; []] ++ crlf_lines [B "GET /g HTTP/1.0"; []], None)] in
  let run := http1 ref_parse (fun _ => KSize 0 false) (on_request x) (on_error x) (app_config []) std_defs enc_plain 50 (new_client net []) (no_buf, []) in
  (fst run, concat (cl_out (k_client (snd run)))).
Definition ex_sent : bytes :=
    lines [B "HTTP/1.1 200 OK"; B "Accept-Encodings: identity"; B "Content-Type: text/html; charset=utf-8"; B "Content-Length: 5"; []] ++ B "<p>hi" ++
    lines [B "HTTP/1.0 200 OK"; B "Accept-Encodings: identity"; B "Content-Type: text/html; charset=utf-8"; B "Content-Length: 5"; []] ++
    lines [B "HTTP/1.1 200 OK"; B "Accept-Encodings: identity"; B "Content-Type: application/octet-stream"; B "Transfer-Encoding: chunked"; []] ++ lines [B "0"; []] ++
    bare_page HTTP11 (B "404 Not Found") ++ bare_page HTTP11 (B "404 Not Found") ++ bare_page HTTP10 (B "404 Not Found").
Example C95_case : exists o x, ex_static = Some o /\ Running [([], o)] x /\ path_clean (B "/f") = B "/f" /\ DirOf (B "/srv") (B "/srv") /\ ex_run x = (EndWrite, ex_sent).
Proof.
  assert (E : match ex_static with Some o => match start _ [([], o)] with Some x => Some (ex_run x) | None => None end | None => None end = Some (EndWrite, ex_sent)) by (vm_compute; reflexivity).
  destruct ex_static as [o|]; [|discriminate E]. destruct (start _ [([], o)]) as [x|] eqn:Ex; [|discriminate E]. exists o, x. split; [reflexivity|].
  split; [apply start_running; exact Ex|]. split; [reflexivity|]. split; [right; split; [reflexivity|vm_compute; discriminate]|].
  apply (f_equal (fun o => match o with Some p => p | None => (EndRead, []) end)) in E. exact E.
Qed.
