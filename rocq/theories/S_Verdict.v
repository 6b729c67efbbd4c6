(* Specification: what the server makes of any bytes that come as the head of a request, line by
   line: it waits for more, takes them as a request, refuses them with a certain error, or
   panics (which it should not). *)
From Verif Require Import M_Base M_Status M_Method M_Proto M_KeyValue M_Query M_Request M_Parser S_Head S_Parser S_Split.

(* ---- header lines ---- *)
Definition length_name (k : bytes) : bool := equal_fold k (B "content-length").
(* room for another line of that name, after the lines ls *)
Definition name_fits (lim : limits) (ls : list hline) (k : bytes) : Prop := (keys_size ls + len k <= lim_keys lim)%Z.
Definition line_allowed (lim : limits) (ls : list hline) : Prop := (Z.of_nat (List.length ls) + 1 <= lim_headers lim)%Z.
Definition value_fits (lim : limits) (ls : list hline) (raw : bytes) : Prop :=
  (values_size ls + len raw <= lim_values lim)%Z /\ (len raw <= lim_value lim)%Z.
Definition digits_spaces (ds : bytes) : Prop := Forall (fun c => c = SP \/ is_digit c = true) ds.
(* nothing follows, or another line *)
Inductive Rest : bytes -> Prop := Rt_end : Rest [] | Rt_line : forall t, Rest (LF :: t).

Inductive lverdict := LMore | LTaken (ls : list hline) (rest : bytes) | LRefused (e : http_error) | LPanics.
(* [LinesSay lim ls t v]: after the lines ls, the stream t gets the verdict v *)
Inductive LinesSay (lim : limits) : list hline -> bytes -> lverdict -> Prop :=
(* the end of the head *)
| Ls_nothing : forall ls, LinesSay lim ls [] LMore
| Ls_end : forall ls crlf t, LinesSay lim ls (eol crlf ++ t) (LTaken ls t)
| Ls_cr : forall ls, LinesSay lim ls [CR] LMore
| Ls_cr_other : forall ls c t, c <> LF -> LinesSay lim ls (CR :: c :: t) (LRefused ErrBadRequest)
(* a name *)
| Ls_name : forall ls n, plain_name n -> n <> [] -> name_fits lim ls n -> LinesSay lim ls n LMore
| Ls_name_long : forall ls n t, plain_name n -> t = [] /\ n <> [] \/ hd CR t = x3a -> ~ name_fits lim ls n ->
    LinesSay lim ls (n ++ t) (LRefused ErrHeaderFieldsTooLarge)
| Ls_many : forall ls n t, plain_name n -> name_fits lim ls n -> ~ line_allowed lim ls ->
    LinesSay lim ls (n ++ x3a :: t) (LRefused ErrTooManyHeaders)
(* a value *)
| Ls_value : forall ls n raw, plain_name n -> length_name n = false -> name_fits lim ls n -> line_allowed lim ls ->
    ~ In LF raw -> value_fits lim ls raw -> LinesSay lim ls (n ++ x3a :: raw) LMore
| Ls_value_long : forall ls n raw t, plain_name n -> length_name n = false -> name_fits lim ls n -> line_allowed lim ls ->
    ~ In LF raw -> Rest t -> ~ value_fits lim ls raw -> LinesSay lim ls (n ++ x3a :: raw ++ t) (LRefused ErrHeaderFieldsTooLarge)
| Ls_blank : forall ls n k t, plain_name n -> length_name n = false -> name_fits lim ls n -> line_allowed lim ls ->
    value_fits lim ls (repeat SP k) -> LinesSay lim ls (n ++ x3a :: repeat SP k ++ LF :: t) LPanics
| Ls_line : forall ls l t v, is_content_length l = false -> wf_line l -> name_fits lim ls (hl_key l) -> line_allowed lim ls ->
    value_fits lim ls (raw_value l) -> LinesSay lim (ls ++ [l]) t v -> LinesSay lim ls (render_line l ++ t) v
(* the value of Content-Length *)
| Ls_length : forall ls n ds t, plain_name n -> length_name n = true -> name_fits lim ls n -> line_allowed lim ls ->
    digits_spaces ds -> t = [] \/ t = [CR] -> LinesSay lim ls (n ++ x3a :: ds ++ t) LMore
| Ls_length_bad : forall ls n ds c t, plain_name n -> length_name n = true -> name_fits lim ls n -> line_allowed lim ls ->
    digits_spaces ds -> c <> SP -> is_digit c = false -> c <> CR -> c <> LF -> LinesSay lim ls (n ++ x3a :: ds ++ c :: t) (LRefused ErrBadRequest)
| Ls_length_cr : forall ls n ds c t, plain_name n -> length_name n = true -> name_fits lim ls n -> line_allowed lim ls ->
    digits_spaces ds -> c <> LF -> LinesSay lim ls (n ++ x3a :: ds ++ CR :: c :: t) (LRefused ErrBadRequest)
| Ls_length_line : forall ls n ds crlf t v, plain_name n -> length_name n = true -> name_fits lim ls n -> line_allowed lim ls ->
    digits_spaces ds -> LinesSay lim (ls ++ [HLine n 0 ds crlf]) t v -> LinesSay lim ls (n ++ x3a :: ds ++ eol crlf ++ t) v.

(* ---- the whole head ---- *)
(* the method m and the rest l of a good request line; any byte may separate the numbers of the
   version *)
Definition version_is (v : bytes) (p : proto) : Prop :=
  exists c, v = B "HTTP/1" ++ [c; x30] /\ p = HTTP10 \/ v = B "HTTP/1" ++ [c; x31] /\ p = HTTP11 \/ v = B "HTTP/2" ++ [c; x30] /\ p = HTTP2.
Definition GoodLine (m l : bytes) (h : head) : Prop :=
  exists v, h_method h <> MUnknown /\ m = method_token (h_method h) /\ l = target h ++ SP :: v /\ ~ In SP v /\
    version_is (bare v) (h_proto h) /\ h_path h <> [] /\ ~ In x3f (h_path h) /\ LooselyDecodes (h_path h) (h_decoded h).
Definition with_lines (ls : list hline) (h : head) : head :=
  Head (h_method h) (h_path h) (h_decoded h) (h_query h) (h_proto h) (h_crlf h) ls (h_end_crlf h).

(* refused: with the version the stream has named so far, if it has *)
Inductive verdict := VMore | VTaken (h : head) (rest : bytes) | VRefused (v : option proto) (e : http_error) | VPanics.
Definition of_lines (h : head) (v : lverdict) : verdict :=
  match v with LMore => VMore | LTaken ls rest => VTaken (with_lines ls h) rest | LRefused e => VRefused (Some (h_proto h)) e | LPanics => VPanics end.
Definition line_version (e : http_error) : option proto := if (he_code e =? 505)%N then Some PUnknown else None.
Inductive HeadSays (lim : limits) : bytes -> verdict -> Prop :=
| Hs_method_more : forall t, ~ In SP t -> HeadSays lim t VMore
| Hs_no_method : forall t, HeadSays lim (SP :: t) (VRefused None ErrBadRequest)
| Hs_method : forall m t, ~ In SP m -> m <> [] -> ~ In m method_names -> HeadSays lim (m ++ SP :: t) (VRefused None ErrMethodNotImplemented)
| Hs_line_more : forall m t, In m method_names -> ~ In LF t -> HeadSays lim (m ++ SP :: t) VMore
| Hs_line_bad : forall m l t e, In m method_names -> ~ In LF l -> LineRefused m l e -> HeadSays lim (m ++ SP :: l ++ LF :: t) (VRefused (line_version e) e)
| Hs_line_blank : forall m l t, In m method_names -> ~ In LF l -> HeadSays lim (m ++ SP :: l ++ SP :: LF :: t) VPanics
| Hs_lines : forall m l t h v, ~ In LF l -> GoodLine m l h -> LinesSay lim [] t v -> HeadSays lim (m ++ SP :: l ++ LF :: t) (of_lines h v).

(* ---- the request taken ---- *)
Definition is_field (l : hline) : bool := negb (is_content_length l).
(* the digits of all Content-Length lines, one after the other *)
Definition length_digits (ls : list hline) : bytes := filter is_digit (concat (map hl_value (filter is_content_length ls))).
(* the number n as an int of 64 bits *)
Definition as_int64 (n z : Z) : Prop :=
  (-9223372036854775808 <= z < 9223372036854775808)%Z /\ (exists k, n = z + k * 18446744073709551616)%Z.
Definition LengthAs (r0 : request) (h : head) (r : request) : Prop :=
  if existsb is_content_length (h_lines h) then as_int64 (dec_value (length_digits (h_lines h))) (r_content_length r)
  else r_content_length r = r_content_length r0.
(* everything in the request: from the lines of the head, or as before where no line says otherwise.
   A list of codings with more elements than the limit counts as empty. *)
Record TakenAs (lim : limits) (r0 : request) (h : head) (r : request) : Prop := {
  ta_method : r_method r = h_method h;
  ta_path : r_path r = h_decoded h;
  ta_proto : r_proto r = h_proto h;
  ta_query : match h_query h with
             | Some q => q_raw (r_query r) = q /\ q_parsed (r_query r) = false
             | None => r_query r = r_query r0
             end;
  ta_headers : kv_pairs (r_headers r) = kv_pairs (r_headers r0) ++ field_pairs (h_lines h);
  ta_length : LengthAs r0 h r;
  ta_ctype : r_content_type r = or_default (last_value (B "content-type") (h_lines h)) (r_content_type r0);
  ta_conn : r_connection r = or_default (last_value (B "connection") (h_lines h)) (r_connection r0);
  ta_upgrade : r_upgrade r = or_default (option_map offered_upgrade (last_value (B "upgrade") (h_lines h))) (r_upgrade r0);
  ta_transfer : enc_transfer (r_encoding r) =
    or_default (option_map (capped (lim_tokens lim)) (last_value (B "transfer-encoding") (h_lines h))) (enc_transfer (r_encoding r0));
  ta_chunked : enc_chunked (r_encoding r) =
    or_default (option_map (capped_chunked (lim_tokens lim)) (last_value (B "transfer-encoding") (h_lines h))) (enc_chunked (r_encoding r0));
  ta_content : enc_content (r_encoding r) =
    or_default (option_map (capped (lim_tokens lim)) (last_value (B "content-encoding") (h_lines h))) (enc_content (r_encoding r0));
  ta_trailer : enc_trailer (r_encoding r) = existsb (named (B "trailer")) (h_lines h) || enc_trailer (r_encoding r0);
  ta_params : r_params r = r_params r0;
  ta_ctx : r_ctx r = r_ctx r0;
  ta_env : r_env r = r_env r0;
  ta_hijacked : r_hijacked r = r_hijacked r0
}.
(* what the parser does is what the verdict says *)
Definition Obeys (lim : limits) (r0 : request) (res : pres * list bytes) (v : verdict) : Prop :=
  match v with
  | VMore => exists p, res = (RPending p, [])
  | VTaken h rest => exists p extra, fst res = RDone p extra /\ extra ++ concat (snd res) = rest /\
                       TakenAs lim r0 h (p_req p)
  | VRefused v e => exists p, fst res = RErr p e /\ r_proto (p_req p) = or_default v (r_proto r0)
  | VPanics => fst res = RPanic
  end.
(* two verdicts that say the same *)
Definition Agree (v v' : verdict) : Prop :=
  match v, v' with
  | VMore, VMore => True
  | VTaken _ rest, VTaken _ rest' => rest = rest'
  | VRefused p e, VRefused p' e' => p = p' /\ e = e'
  | VPanics, VPanics => True
  | _, _ => False
  end.
