(* Specification: what the server makes of any bytes at all that come as the head of a request, in
   any reads.  The vocabulary is that of S_Verdict.v; what is added is what its guards exclude:
   names with line breaks in them, request lines beyond the buffer, and where the reads begin. *)
From Verif Require Import M_Base M_Status M_Method M_Proto M_KeyValue M_Query M_Request M_Parser S_Head S_Parser S_Split S_Verdict.

(* ---- names ---- *)
(* a name goes up to the first colon, whatever is in between; but CR or LF where a name should begin
   is the end of the head *)
Definition a_break (c : byte) : Prop := c = CR \/ c = LF.
Definition a_name (n : bytes) : Prop := ~ In x3a n /\ ~ a_break (hd x3a n).
(* how a name is compared: bytes with bit 5 set, so that CR counts as '-' and LF as '*' *)
Definition compared (k : bytes) : bytes := map (fun c => if Byte.eqb c CR then x2d else if Byte.eqb c LF then x2a else c) k.
Definition compared_line (l : hline) : hline := HLine (compared (hl_key l)) (hl_spaces l) (hl_value l) (hl_crlf l).
Definition counts_length (k : bytes) : bool := equal_fold (compared k) (B "content-length").
Definition a_line (l : hline) : Prop :=
  a_name (hl_key l) /\ ~ In LF (hl_value l) /\ hd CR (hl_value l) <> SP /\
  (hl_crlf l = false -> hl_value l <> [] /\ last_byte (hl_value l) <> Some CR).
Definition value_room (lim : limits) (ls : list hline) (raw : bytes) : Prop := value_fits lim (map compared_line ls) raw.

(* ---- header lines that come in one read ---- *)
(* [LinesTell lim ls t v]: after the lines ls, the stream t gets the verdict v *)
Inductive LinesTell (lim : limits) : list hline -> bytes -> lverdict -> Prop :=
(* the end of the head *)
| Lt_nothing : forall ls, LinesTell lim ls [] LMore
| Lt_end : forall ls crlf t, LinesTell lim ls (eol crlf ++ t) (LTaken ls t)
| Lt_cr : forall ls, LinesTell lim ls [CR] LMore
| Lt_cr_other : forall ls c t, c <> LF -> LinesTell lim ls (CR :: c :: t) (LRefused ErrBadRequest)
(* a name *)
| Lt_name : forall ls n, a_name n -> n <> [] -> name_fits lim ls n -> LinesTell lim ls n LMore
| Lt_name_long : forall ls n t, a_name n -> t = [] /\ n <> [] \/ hd CR t = x3a -> ~ name_fits lim ls n ->
    LinesTell lim ls (n ++ t) (LRefused ErrHeaderFieldsTooLarge)
| Lt_many : forall ls n t, a_name n -> name_fits lim ls n -> ~ line_allowed lim ls ->
    LinesTell lim ls (n ++ x3a :: t) (LRefused ErrTooManyHeaders)
(* a value *)
| Lt_value : forall ls n raw, a_name n -> counts_length n = false -> name_fits lim ls n -> line_allowed lim ls ->
    ~ In LF raw -> value_room lim ls raw -> LinesTell lim ls (n ++ x3a :: raw) LMore
| Lt_value_long : forall ls n raw t, a_name n -> counts_length n = false -> name_fits lim ls n -> line_allowed lim ls ->
    ~ In LF raw -> Rest t -> ~ value_room lim ls raw -> LinesTell lim ls (n ++ x3a :: raw ++ t) (LRefused ErrHeaderFieldsTooLarge)
| Lt_blank : forall ls n k t, a_name n -> counts_length n = false -> name_fits lim ls n -> line_allowed lim ls ->
    value_room lim ls (repeat SP k) -> LinesTell lim ls (n ++ x3a :: repeat SP k ++ LF :: t) LPanics
| Lt_line : forall ls l t v, counts_length (hl_key l) = false -> a_line l -> name_fits lim ls (hl_key l) -> line_allowed lim ls ->
    value_room lim ls (raw_value l) -> LinesTell lim (ls ++ [l]) t v -> LinesTell lim ls (render_line l ++ t) v
(* the value of Content-Length *)
| Lt_length : forall ls n ds t, a_name n -> counts_length n = true -> name_fits lim ls n -> line_allowed lim ls ->
    digits_spaces ds -> t = [] \/ t = [CR] -> LinesTell lim ls (n ++ x3a :: ds ++ t) LMore
| Lt_length_bad : forall ls n ds c t, a_name n -> counts_length n = true -> name_fits lim ls n -> line_allowed lim ls ->
    digits_spaces ds -> c <> SP -> is_digit c = false -> c <> CR -> c <> LF -> LinesTell lim ls (n ++ x3a :: ds ++ c :: t) (LRefused ErrBadRequest)
| Lt_length_cr : forall ls n ds c t, a_name n -> counts_length n = true -> name_fits lim ls n -> line_allowed lim ls ->
    digits_spaces ds -> c <> LF -> LinesTell lim ls (n ++ x3a :: ds ++ CR :: c :: t) (LRefused ErrBadRequest)
| Lt_length_line : forall ls n ds crlf t v, a_name n -> counts_length n = true -> name_fits lim ls n -> line_allowed lim ls ->
    digits_spaces ds -> LinesTell lim (ls ++ [HLine n 0 ds crlf]) t v -> LinesTell lim ls (n ++ x3a :: ds ++ eol crlf ++ t) v.

(* ---- header lines in any reads ---- *)
(* [NameBegun b n]: b is whole lines, n the beginning of a name *)
Inductive NameBegun : bytes -> bytes -> Prop :=
| Nb_name : forall n, n <> [] -> a_name n -> NameBegun [] n
| Nb_line : forall k v b n, a_name k -> ~ In LF v -> NameBegun b n -> NameBegun (k ++ x3a :: v ++ LF :: b) n.
(* [LinesHeard lim a reads t]: a was read and more is awaited, the reads follow; it is as if t had come
   in one.  A read that begins with CR or LF within a name is taken for the end of the head, and
   what was read of the name is forgotten. *)
Definition forgets (lim : limits) (a b n d : bytes) : Prop :=
  a = b ++ n /\ NameBegun b n /\ LinesTell lim [] a LMore /\ exists c d', d = c :: d' /\ a_break c.
Inductive LinesHeard (lim : limits) : bytes -> list bytes -> bytes -> Prop :=
| Lh_end : forall a, LinesHeard lim a [] a
| Lh_forget : forall a b n d reads, forgets lim a b n d -> LinesHeard lim a (d :: reads) (b ++ d ++ concat reads)
| Lh_more : forall a d reads t, (forall b n, ~ forgets lim a b n d) -> LinesHeard lim (a ++ d) reads t -> LinesHeard lim a (d :: reads) t.

(* ---- the whole head ---- *)
(* the reads without their first k bytes *)
Fixpoint without (k : nat) (reads : list bytes) : list bytes :=
  match reads with
  | [] => []
  | d :: rest => if Nat.leb k (List.length d) then skipn k d :: rest else without (k - List.length d) rest
  end.
Fixpoint first_read (reads : list bytes) : bytes :=
  match reads with [] => [] | [] :: rest => first_read rest | d :: _ => d end.
(* the part of the method m that is kept in the buffer of the request line: all of it, unless it
   came in one read together with the space behind it *)
Definition kept (reads : list bytes) (m : bytes) : bytes := if Nat.ltb (List.length m) (List.length (first_read reads)) then [] else m.

Inductive HeadHeard (lim : limits) (reads : list bytes) : verdict -> Prop :=
| Hh_method_more : ~ In SP (concat reads) -> (len (concat reads) <= lim_line lim)%Z -> HeadHeard lim reads VMore
| Hh_method_long : ~ In SP (concat reads) -> (len (concat reads) > lim_line lim)%Z -> HeadHeard lim reads (VRefused None ErrTooLongRequestLine)
| Hh_method_split : forall m t, concat reads = m ++ SP :: t -> ~ In SP m -> (len (kept reads m) > lim_line lim)%Z ->
    HeadHeard lim reads (VRefused None ErrTooLongRequestLine)
| Hh_no_method : forall t, concat reads = SP :: t -> HeadHeard lim reads (VRefused None ErrBadRequest)
| Hh_method : forall m t, concat reads = m ++ SP :: t -> ~ In SP m -> (len (kept reads m) <= lim_line lim)%Z -> m <> [] -> ~ In m method_names ->
    HeadHeard lim reads (VRefused None ErrMethodNotImplemented)
| Hh_line_long : forall m t, concat reads = m ++ SP :: t -> In m method_names -> (len (kept reads m) <= lim_line lim)%Z ->
    (len (kept reads m) + len (line_part t) > lim_line lim)%Z -> HeadHeard lim reads (VRefused None ErrURITooLong)
| Hh_line_more : forall m t, concat reads = m ++ SP :: t -> In m method_names -> ~ In LF t -> (len (kept reads m) + len t <= lim_line lim)%Z ->
    HeadHeard lim reads VMore
| Hh_line_bad : forall m l t e, concat reads = m ++ SP :: l ++ LF :: t -> In m method_names -> ~ In LF l -> (len (kept reads m) + len l <= lim_line lim)%Z ->
    LineRefused m l e -> HeadHeard lim reads (VRefused (line_version e) e)
| Hh_line_blank : forall m l t, concat reads = m ++ SP :: l ++ SP :: LF :: t -> In m method_names -> ~ In LF l ->
    (len (kept reads m) + len l + 1 <= lim_line lim)%Z -> HeadHeard lim reads VPanics
| Hh_lines : forall m l t h t' v, concat reads = m ++ SP :: l ++ LF :: t -> ~ In LF l -> (len (kept reads m) + len l <= lim_line lim)%Z ->
    GoodLine m l h -> LinesHeard lim [] (without (List.length m + List.length l + 2) reads) t' -> LinesTell lim [] t' v ->
    HeadHeard lim reads (of_lines h v).

(* ---- the request taken ---- *)
(* the headers under the names sent; everything else as if the names were those compared *)
Definition fields_sent (ls : list hline) : list (bytes * bytes) :=
  map (fun l => (hl_key l, hl_value l)) (filter (fun l => negb (counts_length (hl_key l))) ls).
Definition TakenFrom (lim : limits) (r0 : request) (h : head) (r : request) : Prop :=
  kv_pairs (r_headers r) = kv_pairs (r_headers r0) ++ fields_sent (h_lines h) /\
  exists hs, TakenAs lim r0 (with_lines (map compared_line (h_lines h)) h) (set_headers hs r).
Definition Follows (lim : limits) (r0 : request) (res : pres * list bytes) (v : verdict) : Prop :=
  match v with
  | VMore => exists p, res = (RPending p, [])
  | VTaken h rest => exists p extra, fst res = RDone p extra /\ extra ++ concat (snd res) = rest /\ TakenFrom lim r0 h (p_req p)
  | VRefused v e => exists p, fst res = RErr p e /\ r_proto (p_req p) = or_default v (r_proto r0)
  | VPanics => fst res = RPanic
  end.
