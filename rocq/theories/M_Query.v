(* http/query: lazily parsed URI parameters. *)
From Verif Require Import M_Base M_Status M_Uri M_KeyValue.

(* http/query/internal/parser.go:25-71: the two scanning loops on already decoded data.
   In-place replacement of '+' by ' ' only touches the part that becomes the key or value,
   so it is a map over that part.  [query_key data]: label parseKey; [query_value]: label
   parseValue.  Pairs added before the error stay added, hence the accumulated list is
   returned in both cases. *)
Definition plus_to_space (c : byte) : byte := if Byte.eqb c x2b then x20 else c.

(* first '=' or '&' in data: (before, which, after) *)
Fixpoint scan_key (data : bytes) (acc : bytes) : bytes * option (byte * bytes) :=
  match data with
  | [] => (acc, None)
  | c :: d => if Byte.eqb c x3d then (acc, Some (x3d, d))
              else if Byte.eqb c x26 then (acc, Some (x26, d))
              else scan_key d (acc ++ [plus_to_space c])
  end.
Fixpoint scan_value (data : bytes) (acc : bytes) : bytes * option bytes :=
  match data with
  | [] => (acc, None)
  | c :: d => if Byte.eqb c x26 then (acc, Some d)
              else scan_value d (acc ++ [plus_to_space c])
  end.
(* http/query/internal/parser.go:11  defaultEmptyValueContent *)
Definition flag_value : bytes := B "1".
Fixpoint query_key (fuel : nat) (data : bytes) (acc : list pair_t) : list pair_t * option bytes :=
  match fuel with
  | O => (acc, None)
  | S f =>
      match data with
      | [] => (acc, None)
      | _ =>
          match scan_key data [] with
          | (k, None) => (acc ++ [(k, flag_value)], None)
          | (k, Some (x26, rest)) => query_key f rest (acc ++ [(k, flag_value)])
          | ([], Some (_, _)) => (acc, Some data)
          | (k, Some (_, rest)) =>
              match scan_value rest [] with
              | (v, None) => (acc ++ [(k, v)], None)
              | (v, Some rest') => query_key f rest' (acc ++ [(k, v)])
              end
          end
      end
  end.

(* http/query/internal/parser.go:13-71  Parse: result pairs added to the storage, and the
   error if any.  [query_key] returns the data at which ErrBadQuery was raised. *)
Definition query_parse (data : bytes) : list pair_t * option http_error :=
  match data with
  | [] => ([], None)
  | _ =>
      match uri_decode data with
      | None => ([], Some ErrURIDecoding)
      | Some d =>
          match query_key (S (List.length d)) d [] with
          | (ps, None) => (ps, None)
          | (ps, Some _) => (ps, Some ErrBadQuery)
          end
      end
  end.

(* What Parse leaves in the memory of the raw query: parser.go:18 decodes in place, lines
   45 and 64 replace '+' in the part scanned so far. *)
Definition query_raw_after (raw : bytes) : bytes :=
  match uri_decode_mem raw (List.length raw) with
  | (mem, None) => mem
  | (mem, Some (i, j)) =>
      let d := slice mem i j in
      let remaining := match snd (query_key (S (List.length d)) d []) with
                       | None => 0
                       | Some rest => List.length rest
                       end in
      let scanned := List.length d - remaining in
      firstn i mem ++ map plus_to_space (firstn scanned d) ++ skipn (i + scanned) mem
  end.

(* http/query/query.go:15-25 *)
Record query := Query { q_parsed : bool; q_params : storage; q_raw : bytes }.
Definition query_new (s : storage) : query := Query false s [].

(* query.go:30-37  Set *)
Definition query_set (q : query) (raw : bytes) : query :=
  if q_parsed q then Query false (kv_clear (q_params q)) raw
  else Query false (q_params q) raw.

(* query.go:67-75  parse.  [q_raw] is a slice of the start-line buffer; parsing rewrites it
   in place. *)
Definition query_do_parse (q : query) : query * option http_error :=
  if q_parsed q then (q, None)
  else let '(ps, e) := query_parse (q_raw q) in
       (Query true (fold_left (fun s kv => kv_add s (fst kv) (snd kv)) ps (q_params q))
              (query_raw_after (q_raw q)), e).

(* query.go:44-55  Get.  ErrNoSuchKey is the [QNoKey] result. *)
Inductive query_result := QValue (v : bytes) | QNoKey | QErr (e : http_error).
Definition query_get (q : query) (key : bytes) : query * query_result :=
  let '(q', e) := query_do_parse q in
  match e with
  | Some err => (q', QErr err)
  | None => (q', match kv_get (q_params q') key with Some v => QValue v | None => QNoKey end)
  end.

(* query.go:58-60  Unwrap: the parameters and the error of this call *)
Definition query_unwrap (q : query) : query * list pair_t * option http_error :=
  let '(q', e) := query_do_parse q in (q', kv_pairs (q_params q'), e).

(* query.go:63-65  Raw *)
Definition query_raw (q : query) : bytes := q_raw q.
