(* internal/protocol/http1/serializer.go: rendering and sending responses. *)
From Verif Require Import M_Base M_Status M_Method M_Proto M_Client M_Request M_Response.

(* serializer.go:396-400  defaultHeader *)
Record default_header := DefH { dh_excluded : bool; dh_key : bytes; dh_full : bytes }.
(* serializer.go:391-394  renderHeader (the function) *)
Definition render_default (key value : bytes) : bytes := key ++ B ": " ++ value ++ CRLF.
(* serializer.go:375-389  processDefaultHeaders.  The list is the map in the order the loop
   visits it; Key is full[:len(key)]. *)
Definition process_defaults (hdrs : list (bytes * bytes)) : list default_header :=
  map (fun kv => let full := render_default (fst kv) (snd kv) in
                 DefH false (firstn (List.length (fst kv)) full) full) hdrs.
(* serializer.go:404-412  Exclude: marks the first entry of that name *)
Fixpoint exclude (key : bytes) (d : list default_header) : list default_header :=
  match d with
  | [] => []
  | h :: d' => if equal_fold (dh_key h) key then DefH true (dh_key h) (dh_full h) :: d'
               else h :: exclude key d'
  end.
(* serializer.go:414-418  Reset: the loop variable is a copy, so nothing is changed *)
Definition reset_defaults (d : list default_header) : list default_header := d.

(* serializer.go:40-49.  [s_filebuf] is the memory of fileBuff, None before it is allocated;
   request and writer are passed to the functions. *)
Record serializer := Ser {
  s_buff : bytes;
  s_filebuf : option bytes;
  s_filesize : nat;
  s_defaults : list default_header
}.
(* serializer.go:29, 51-74  NewSerializer *)
Definition new_serializer (file_buff_size : Z) (defaults : list (bytes * bytes)) : serializer :=
  Ser [] None (Z.to_nat (if (file_buff_size <? 16)%Z then 16 else file_buff_size)) (process_defaults defaults).

Definition put (b : bytes) (s : serializer) : serializer :=
  Ser (s_buff s ++ b) (s_filebuf s) (s_filesize s) (s_defaults s).

(* serializer.go:340-342  renderProtocol *)
Definition render_protocol (p : proto) : serializer -> serializer := put (proto_string p).
(* serializer.go:124-137  renderResponseLine.  The custom status only selects the branch. *)
Definition render_response_line (f : fields) (s : serializer) : serializer :=
  match f_status f, status_line (f_code f) with
  | [], x :: l => put (x :: l) s
  | _, _ => put CRLF (put (status_text (f_code f)) (put [SP] (put (itoa_N (f_code f)) s)))
  end.
(* serializer.go:265-270  renderHeader (the method) *)
Definition render_header (kv : bytes * bytes) (s : serializer) : serializer :=
  put CRLF (put (snd kv) (put (B ": ") (put (fst kv) s))).
(* serializer.go:334-338  renderKnownHeader *)
Definition render_known (key value : bytes) (s : serializer) : serializer :=
  put CRLF (put value (put key s)).
Definition exclude_in (key : bytes) (s : serializer) : serializer :=
  Ser (s_buff s) (s_filebuf s) (s_filesize s) (exclude key (s_defaults s)).
(* serializer.go:139-160  renderHeaders *)
Definition render_defaults (s : serializer) : serializer :=
  fold_left (fun s h => if dh_excluded h then s else put (dh_full h) s) (s_defaults s) s.
Definition render_headers (f : fields) (s : serializer) : serializer :=
  let s := fold_left (fun s h => exclude_in (fst h) (render_header h s)) (f_headers f) s in
  let s := render_defaults s in
  let s := render_known (B "Content-Type: ") (f_ctype f) s in
  match f_te f with [] => s | t => render_known (B "Transfer-Encoding: ") t s end.
(* serializer.go:329-332  renderContentLength *)
Definition render_content_length (n : Z) (s : serializer) : serializer :=
  put CRLF (put (itoa n) (put (B "Content-Length: ") s)).
(* serializer.go:272-327  renderCookie *)
Definition render_cookie (c : cookie) (s : serializer) : serializer :=
  let s := put (B "Set-Cookie: ") s in
  let s := put (B "; ") (put (ck_value c) (put (B "=") (put (ck_name c) s))) in
  let s := match ck_path c with [] => s | p => put (B "; ") (put p (put (B "Path=") s)) end in
  let s := match ck_domain c with [] => s | d => put (B "; ") (put d (put (B "Domain=") s)) end in
  let s := match ck_expires c with None => s | Some e => put (B "; ") (put e (put (B "Expires=") s)) end in
  let s := if (ck_maxage c =? 0)%Z then s
           else let m := if (0 <? ck_maxage c)%Z then itoa (ck_maxage c) else B "0" in
                put (B "; ") (put m (put (B "MaxAge=") s)) in
  let s := match ck_samesite c with [] => s | v => put (B "; ") (put v (put (B "SameSite=") s)) end in
  let s := if ck_secure c then put (B "Secure; ") s else s in
  let s := if ck_httponly c then put (B "HttpOnly; ") s else s in
  put CRLF (Ser (firstn (List.length (s_buff s) - 2) (s_buff s)) (s_filebuf s) (s_filesize s) (s_defaults s)).

(* serializer.go:356-359  clear *)
Definition ser_clear (s : serializer) : serializer :=
  Ser [] (s_filebuf s) (s_filesize s) (reset_defaults (s_defaults s)).

(* serializer.go:361-373  isKeepAlive *)
Definition is_keep_alive (p : proto) (r : request) : bool :=
  match p with
  | HTTP10 => equal_fold (r_connection r) (B "keep-alive")
  | HTTP11 => negb (equal_fold (r_connection r) (B "close"))
  | _ => false
  end.

(* serializer.go:78-84  PreWrite *)
Definition pre_write (p : proto) (f : fields) (s : serializer) : serializer :=
  put CRLF (render_headers f (render_response_line f (render_protocol p s))).

(* Results of Write: nil, ErrCloseConnection, the writer's own error, a panic, or never
   returning (the attached reader blocks for ever) *)
Inductive wres := WOk | WClose | WNet | WPanic | WStuck.

(* Go's copy(mem[off:], data) on a slice of fixed length *)
Definition overwrite (mem : bytes) (off : nat) (data : bytes) : bytes :=
  let d := firstn (List.length mem - off) data in
  firstn off mem ++ d ++ skipn (off + List.length d) mem.
(* mem[i:j] *)
Definition slice (mem : bytes) (i j : nat) : bytes := firstn (j - i) (skipn i mem).

(* serializer.go:208-227  writePlainBody.  Result: outcome, file buffer, client, what is left
   of the reader.  A Read returning more than the buffer holds breaks io.Reader's contract:
   fileBuff[:n] then panics. *)
Fixpoint write_plain (ev : rd_events) (mem : bytes) (c : client) : wres * bytes * client * rd_events :=
  match ev with
  | [] => (WStuck, mem, c, [])
  | (d, e) :: ev' =>
      let mem := overwrite mem 0 d in
      match e with
      | Some REof => (WOk, mem, c, ev')
      | Some RFail => (WClose, mem, c, ev')
      | None =>
          if (List.length mem <? List.length d)%nat then (WPanic, mem, c, ev')
          else let '(ok, c) := client_write c (firstn (List.length d) mem) in
               if ok then write_plain ev' mem c else (WClose, mem, c, ev')
      end
  end.

(* serializer.go:229-262  writeChunkedBody *)
Definition hex_value_offset : nat := 8.
Definition crlf_size : nat := 2.
Definition buff_offset : nat := hex_value_offset + crlf_size.
Definition chunked_finalizer : bytes := B "0" ++ CRLF ++ CRLF.
Fixpoint write_chunked (ev : rd_events) (mem : bytes) (c : client) : wres * bytes * client * rd_events :=
  match ev with
  | [] => (WStuck, mem, c, [])
  | (d, e) :: ev' =>
      (* the reader fills fileBuff[buffOffset : len-crlfSize] *)
      let mem := overwrite mem buff_offset d in
      let n := List.length d in
      let after (mem : bytes) (c : client) :=
        match e with
        | None => write_chunked ev' mem c
        | Some REof => let '(ok, c) := client_write c chunked_finalizer in
                       ((if ok then WOk else WNet), mem, c, ev')
        | Some RFail => (WClose, mem, c, ev')
        end in
      if (0 <? n)%nat then
        let hex := hex_N (N.of_nat n) in
        (* AppendUint into fileBuff[:0]; 8 - len(buff) negative, or a slice end beyond the
           buffer, panics *)
        if (hex_value_offset <? List.length hex)%nat then (WPanic, mem, c, ev')
        else if (List.length mem <? buff_offset + n + crlf_size)%nat then (WPanic, mem, c, ev')
        else
          let mem := overwrite mem 0 hex in
          let blank := hex_value_offset - List.length hex in
          let mem := overwrite mem blank (slice mem 0 (List.length hex)) in
          let mem := overwrite mem hex_value_offset CRLF in
          let mem := overwrite mem (buff_offset + n) CRLF in
          let '(ok, c) := client_write c (slice mem blank (buff_offset + n + crlf_size)) in
          if ok then after mem c else (WClose, mem, c, ev')
      else after mem c
  end.

(* serializer.go:164-206  sendAttachment.  The response is returned because the function
   changes it (TransferEncoding, the reader, Close). *)
Definition set_filebuf m (s : serializer) := Ser (s_buff s) (Some m) (s_filesize s) (s_defaults s).
Definition set_events ev (a : attachment) := Att ev (at_size a) (at_closer a) (at_closes a).
Definition send_attachment (r : request) (f : fields) (a : attachment) (s : serializer) (c : client)
  : wres * serializer * client * fields :=
  let plain := (0 <? at_size a)%Z in
  let f := if plain then f else set_te (B "chunked") f in
  let s := if plain then render_content_length (at_size a) (render_headers f s) else render_headers f s in
  let s := put CRLF s in
  let '(ok, c) := client_write c (s_buff s) in
  if negb ok then (WClose, s, c, f)
  else if method_eqb (r_method r) HEAD then (WOk, s, c, f)
  else
    let mem := match s_filebuf s with
               | Some m => m
               | None => repeat x00 (s_filesize s)
               end in
    let '(res, mem, c, ev) := if plain then write_plain (at_events a) mem c
                              else write_chunked (at_events a) mem c in
    match res with
    | WPanic | WStuck => (res, set_filebuf mem s, c, set_att (Some (set_events ev a)) f)
    | _ => (res, set_filebuf mem s, c, set_att (Some (att_close (set_events ev a))) f)
    end.

(* serializer.go:87-122  Write *)
Definition write_response (p : proto) (r : request) (f : fields) (s : serializer) (c : client)
  : wres * serializer * client * fields :=
  let s := render_response_line f (render_protocol p s) in
  match f_att f with
  | Some a => let '(res, s, c, f) := send_attachment r f a s c in (res, ser_clear s, c, f)
  | None =>
      let s := render_headers f s in
      let s := fold_left (fun s k => render_cookie k s) (f_cookies f) s in
      let s := put CRLF (render_content_length (len (f_body f)) s) in
      let s := if method_eqb (r_method r) HEAD then s else put (f_body f) s in
      let '(ok, c) := client_write c (s_buff s) in
      let res := if ok then WOk else WNet in
      let res := if negb (is_keep_alive p r) && proto_eqb (r_upgrade r) PUnknown then WClose else res in
      (res, ser_clear s, c, f)
  end.
