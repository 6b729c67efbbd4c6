(* Smaller packages: internal/strlenmap, router/simple, router/inbuilt/mutator/requestlogger.go,
   internal/requestgen, internal/httptest. *)
From Verif Require Import M_Base M_Status M_Method M_Proto M_KeyValue M_Query M_Escape M_HeaderValue M_Request M_Client M_Body
  M_Response M_Suit M_Router.

(* ---- internal/strlenmap/map.go ---- *)
Section Strlenmap.
Variable T : Type.
(* map.go:3-6, 45-50: the buckets.  The field Values is never used. *)
Definition smap := list (list (bytes * T)).
(* map.go:8-10  New *)
Definition smap_new : smap := [].
Fixpoint bucket_get (b : list (bytes * T)) (key : bytes) : option T :=
  match b with
  | [] => None
  | (k, v) :: b' => if beqb k key then Some v else bucket_get b' key
  end.
(* map.go:12-24  Get.  Outer None: index out of range; inner None: not found. *)
Definition smap_get (m : smap) (key : bytes) : option (option T) :=
  if (List.length m <=? List.length key)%nat then Some None
  else match nth_error m (List.length key) with
       | None => None
       | Some b => Some (bucket_get b key)
       end.
(* map.go:39-43  resize: a new slice of n buckets, the old ones copied as far as they fit *)
Definition smap_resize (m : smap) (n : nat) : smap := firstn n m ++ repeat [] (n - List.length m).
(* map.go:28-37  Insert.  None: index out of range. *)
Definition smap_insert (m : smap) (key : bytes) (v : T) : option smap :=
  let m1 := if (List.length m <=? List.length key)%nat then smap_resize m (List.length key + 1) else m in
  match nth_error m1 (List.length key) with
  | None => None
  | Some b => Some (firstn (List.length key) m1 ++ (b ++ [(key, v)]) :: skipn (S (List.length key)) m1)
  end.
End Strlenmap.
Arguments smap_new {T}. Arguments bucket_get {T}. Arguments smap_get {T}. Arguments smap_resize {T}. Arguments smap_insert {T}.

(* ---- router/simple/simple.go ---- *)
(* simple.go:27-29  OnRequest *)
Definition simple_request {W} (h : W -> request -> hprog W) : W -> request -> hprog W := fun w r => h w r.
(* simple.go:31-35  OnError *)
Definition simple_error {W} (eh : W -> request -> hprog W) : W -> request -> http_error -> hprog W :=
  fun w r e => HUpdate (set_error (EHttp e)) (eh w (set_error (EHttp e) r)).

(* ---- router/inbuilt/mutator/requestlogger.go:13-23  RequestsLog ---- *)
(* what the mutator gives to every logger *)
Definition request_line_log (r : request) : bytes := method_string (r_method r) ++ B " " ++ escape (r_path r).
(* The mutators of M_Router.v only change the request; this one only changes what the
   application shares.  [loggers]: what a line does there; no loggers: one that is log.Default().
   A router whose mutators are [before], this one, and others, as the router without it: *)
Definition write_log {W} (deflt : bytes -> W -> W) (loggers : list (bytes -> W -> W)) (r : request) (w : W) : W :=
  fold_left (fun v l => l (request_line_log r) v) (match loggers with [] => [deflt] | _ => loggers end) w.
Definition logging_request {W} (before : list mutator) deflt loggers
    (on_request : W -> request -> hprog W) : W -> request -> hprog W :=
  fun w r => on_request (write_log deflt loggers (run_mutators before r) w) r.
Definition logging_error {W} (before : list mutator) deflt loggers
    (on_error : W -> request -> http_error -> hprog W) : W -> request -> http_error -> hprog W :=
  fun w r e => on_error (write_log deflt loggers (run_mutators before r) w) r e.

(* ---- internal/requestgen/genrequests.go ---- *)
(* genrequests.go:9-17  Headers *)
Definition gen_headers (n : nat) : storage :=
  kv_add (fold_left (fun s i => kv_add s (B "some-random-header-name-nobody-cares-about" ++ itoa (Z.of_nat i)) (repeat x62 100))
            (seq 0 (n - 1)) kv_new)
    (B "Host") (B "localhost").
(* genrequests.go:19-25  HeadersBlock *)
Definition headers_block (h : storage) : bytes :=
  concat (map (fun p => fst p ++ B ": " ++ snd p ++ CRLF) (kv_pairs h)).
(* genrequests.go:27-32  Generate *)
Definition generate (uri : bytes) (h : storage) : bytes :=
  B "GET /" ++ uri ++ B " HTTP/1.1" ++ CRLF ++ headers_block h ++ CRLF.

(* ---- internal/httptest/dump.go ---- *)
(* dump.go:71-77 *)
Definition dump_header (p : pair_t) : bytes := fst p ++ B ": " ++ snd p ++ CRLF.
(* dump.go:79-84 and 64-65 *)
Definition dump_param (p : pair_t) : bytes := fst p ++ B "=" ++ snd p ++ B "&".
(* dump.go:28-30 *)
Definition drop_ampersand (s : bytes) : bytes :=
  match last_byte s with Some c => if Byte.eqb c x26 then drop_last s else s | None => s end.
Inductive derr := DQuery (e : http_error) | DBody (e : berr).
Inductive dres := DOk (text : bytes) (e : option derr) | DPanic | DStuck.
Section Dump.
Variable CS : Type.
Variable cparse : CS -> bytes -> bool -> CS * (bytes * bytes * option cerr).
Variable max_body : Z.
(* dump.go:9-53  Dump.  The text returned with an error of the body is what Bytes gives with
   it: nothing (M_Body.v). *)
Definition dump (r : request) (b : body CS) (c : client) : dres * request * body CS * client :=
  let line := method_string (r_method r) ++ B " " ++ r_path r in
  let q := match q_raw (r_query r) with
           | [] => inr (line, r)
           | _ => let '(q', ps, e) := query_unwrap (r_query r) in
                  match e with
                  | Some err => inl (err, set_query q' r)
                  | None => inr (drop_ampersand (line ++ B "?" ++ concat (map dump_param ps)), set_query q' r)
                  end
           end in
  match q with
  | inl (err, r') => (DOk [] (Some (DQuery err)), r', b, c)
  | inr (line, r') =>
      match proto_string (r_proto r) with
      | [] => (DPanic, r', b, c)          (* protocol[:-1] *)
      | p =>
          let head := line ++ B " " ++ drop_last p ++ CRLF ++ concat (map dump_header (kv_pairs (r_headers r))) ++
                      dump_header (B "Content-Length", itoa (r_content_length r)) ++ CRLF in
          let '(res, b', c') := body_bytes cparse max_body b c in
          match res with
          | BROk d => (DOk (head ++ d) None, r', b', c')
          | BRErr e => (DOk head (Some (DBody e)), r', b', c')
          | BRPanic => (DPanic, r', b', c')
          | BRStuck => (DStuck, r', b', c')
          end
      end
  end.
End Dump.
Arguments dump {CS}.

(* ---- internal/httptest/parse.go ---- *)
(* parse.go:15-21 *)
Record treq := TReq { t_method : method; t_path : bytes; t_proto : bytes; t_headers : storage; t_body : bytes }.
(* the errors of Parse, in the order of the code *)
Inductive terr := TNoMethod | TNoPath | TNoCRLF | TNoBreak | TNoValue | TNoLength | TBadLength | TWrongLength.
(* strings.Cut(s, sep): before, after, found *)
Definition cut_sub (s sep : bytes) : bytes * bytes * bool :=
  match index_sub s sep with
  | Some i => (firstn i s, skipn (i + List.length sep) s, true)
  | None => (s, [], false)
  end.
(* parse.go:50-66, 105-117: the header lines.  [fuel] bounds the rounds of the loop. *)
Fixpoint parse_lines (fuel : nat) (raw : bytes) (h : storage) : option (terr + (storage * bytes)) :=
  match fuel with
  | O => None
  | S n =>
      let '(line, rest, found) := cut_sub raw CRLF in
      match line with
      | [] => Some (inr (h, rest))
      | _ =>
          if found then
            let '(k, v, ok) := cut_sub line (B ": ") in
            if ok then parse_lines n rest (kv_add h k v) else Some (inl TNoValue)
          else Some (inl TNoBreak)
      end
  end.
(* parse.go:94-103  getContentLength: None: not presented; Some None: an error *)
Definition get_content_length (vs : list bytes) : option (option Z) :=
  match vs with
  | [] => None
  | [v] => Some (atoi v)
  | _ => Some None
  end.
(* parse.go:29-92  Parse; the outer None: the loop did not end (it always does) *)
Definition tool_parse (raw : bytes) : option (terr + treq) :=
  let '(m, raw1, ok1) := cut_sub raw (B " ") in
  if negb ok1 || beqb raw1 [] then Some (inl TNoMethod) else
  let '(path, raw2, ok2) := cut_sub raw1 (B " ") in
  if negb ok2 || beqb raw2 [] then Some (inl TNoPath) else
  let '(pr, raw3, ok3) := cut_sub raw2 CRLF in
  if negb ok3 || beqb raw3 [] then Some (inl TNoCRLF) else
  match parse_lines (S (List.length raw3)) raw3 kv_new with
  | None => None
  | Some (inl e) => Some (inl e)
  | Some (inr (h, text)) =>
      let '(h1, vs) := kv_values_of h (B "content-length") in
      let length := match get_content_length (match vs with Some l => l | None => [] end) with
                    | Some (Some n) => inr n
                    | Some None => inl TBadLength
                    | None => if beqb (kv_value h1 (B "connection")) (B "close") then inr (len text) else inl TNoLength
                    end in
      match length with
      | inl e => Some (inl e)
      | inr n => if (n =? len text)%Z then Some (inr (TReq (method_parse m) path pr h1 text)) else Some (inl TWrongLength)
      end
  end.

(* parse.go:153-165  cmpSlice; parse.go:119-151  Compare, as the number of its complaints.
   A nil storage is not modelled. *)
Fixpoint cmp_slice (a b : list bytes) : bool :=
  match a, b with
  | [], [] => true
  | x :: a', y :: b' => beqb x y && cmp_slice a' b'
  | _, _ => false
  end.
Definition values_or_nil (s : storage) (k : bytes) : list bytes := match snd (kv_values_of s k) with Some l => l | None => [] end.
Definition complaint (ok : bool) : nat := if ok then 0%nat else 1%nat.
Definition tool_compare (got want : treq) : nat :=
  (complaint (method_eqb (t_method got) (t_method want)) + complaint (beqb (t_path got) (t_path want)) +
   complaint (beqb (t_proto got) (t_proto want)) +
   fold_left (fun n k => n + complaint (cmp_slice (values_or_nil (t_headers want) k) (values_or_nil (t_headers got) k)))
     (snd (kv_keys (t_headers want))) 0 +
   complaint (List.length (snd (kv_keys (t_headers want))) =? List.length (snd (kv_keys (t_headers got))))%nat +
   complaint (beqb (t_body got) (t_body want)))%nat.
