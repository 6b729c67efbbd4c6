(* Specification: what a well-formed HTTP/1.x request head is, how it is spelled on the
   wire, and what it means.  Independent of the parser model; only the shared vocabulary
   (bytes, methods, protocols, the request record) is used. *)
From Verif Require Import M_Base M_Method M_Proto M_KeyValue M_Query M_Request.

(* ---- percent encoding ---- *)
Definition hex_value (c : byte) : option N :=
  let n := bN c in
  if (48 <=? n)%N && (n <=? 57)%N then Some (n - 48)%N
  else if (65 <=? n)%N && (n <=? 70)%N then Some (n - 55)%N
  else if (97 <=? n)%N && (n <=? 102)%N then Some (n - 87)%N
  else None.

(* [PctDecodes s d]: s is a string with well-formed escapes only, and d is what it denotes *)
Inductive PctDecodes : bytes -> bytes -> Prop :=
| PD_nil : PctDecodes [] []
| PD_char : forall c s d, c <> x25 -> PctDecodes s d -> PctDecodes (c :: s) (c :: d)
| PD_esc : forall h l vh vl s d,
    hex_value h = Some vh -> hex_value l = Some vl -> PctDecodes s d ->
    PctDecodes (x25 :: h :: l :: s) (byte_of_N (16 * vh + vl) :: d).
(* C14: percent decoding as it is done: every '%' takes the two bytes behind it, whatever they
   are; a byte that is no hexadecimal digit counts as 0 *)
Definition digit_or_0 (c : byte) : N := match hex_value c with Some v => v | None => 0%N end.
Inductive LooselyDecodes : bytes -> bytes -> Prop :=
| LD_nil : LooselyDecodes [] []
| LD_char : forall c s d, c <> x25 -> LooselyDecodes s d -> LooselyDecodes (c :: s) (c :: d)
| LD_escape : forall h l s d, LooselyDecodes s d -> LooselyDecodes (x25 :: h :: l :: s) (byte_of_N (16 * digit_or_0 h + digit_or_0 l) :: d).

(* ---- request head ---- *)
Record hline := HLine {
  hl_key : bytes;
  hl_spaces : nat;      (* spaces between the colon and the value *)
  hl_value : bytes;
  hl_crlf : bool        (* line ends with CR LF (true) or a bare LF (false) *)
}.

Record head := Head {
  h_method : method;
  h_path : bytes;               (* still percent-encoded *)
  h_decoded : bytes;            (* what h_path denotes *)
  h_query : option bytes;       (* raw text after '?' *)
  h_proto : proto;
  h_crlf : bool;
  h_lines : list hline;
  h_end_crlf : bool
}.

Definition eol (crlf : bool) : bytes := if crlf then [CR; LF] else [LF].

Definition method_token (m : method) : bytes :=
  match m with
  | MUnknown => []
  | GET => B "GET" | HEAD => B "HEAD" | POST => B "POST" | PUT => B "PUT"
  | DELETE => B "DELETE" | CONNECT => B "CONNECT" | OPTIONS => B "OPTIONS"
  | TRACE => B "TRACE" | PATCH => B "PATCH"
  end.
Definition proto_token (p : proto) : bytes :=
  match p with
  | PUnknown => []
  | HTTP10 => B "HTTP/1.0" | HTTP11 => B "HTTP/1.1" | HTTP2 => B "HTTP/2.0"
  end.

Definition target (h : head) : bytes :=
  h_path h ++ match h_query h with None => [] | Some q => x3f :: q end.
Definition raw_value (l : hline) : bytes :=
  repeat SP (hl_spaces l) ++ hl_value l ++ (if hl_crlf l then [CR] else []).
Definition render_line (l : hline) : bytes :=
  hl_key l ++ x3a :: repeat SP (hl_spaces l) ++ hl_value l ++ eol (hl_crlf l).
Definition render_head (h : head) : bytes :=
  method_token (h_method h) ++ [SP] ++ target h ++ [SP] ++ proto_token (h_proto h) ++ eol (h_crlf h)
  ++ concat (map render_line (h_lines h)) ++ eol (h_end_crlf h).

Definition is_content_length (l : hline) : bool := equal_fold (hl_key l) (B "content-length").

Definition dec_value (ds : bytes) : Z := fold_left (fun a d => (a * 10 + (bZ d - 48))%Z) ds 0%Z.

(* well-formed header line *)
Definition wf_line (l : hline) : Prop :=
  ~ In x3a (hl_key l) /\ ~ In CR (hl_key l) /\ ~ In LF (hl_key l) /\
  (if is_content_length l then
     hl_value l <> [] /\ Forall (fun c => is_digit c = true) (hl_value l) /\
     (dec_value (hl_value l) < 9223372036854775808)%Z
   else
     ~ In LF (hl_value l) /\ hd CR (hl_value l) <> SP /\
     (hl_crlf l = false -> hl_value l <> [] /\ last_byte (hl_value l) <> Some CR)).

Definition wf_head (h : head) : Prop :=
  h_method h <> MUnknown /\ h_proto h <> PUnknown /\
  h_path h <> [] /\ ~ In x3f (h_path h) /\ ~ In LF (h_path h) /\
  PctDecodes (h_path h) (h_decoded h) /\
  match h_query h with None => True | Some q => ~ In LF q end /\
  Forall wf_line (h_lines h) /\
  (List.length (filter is_content_length (h_lines h)) <= 1)%nat.

(* ---- meaning ---- *)
Definition named (name : bytes) (l : hline) : bool := equal_fold (hl_key l) name.
(* value of the last line with the given name, if any *)
Fixpoint last_value (name : bytes) (ls : list hline) : option bytes :=
  match ls with
  | [] => None
  | l :: ls' => match last_value name ls' with
                | Some v => Some v
                | None => if named name l then Some (hl_value l) else None
                end
  end.
Definition or_default {A} (o : option A) (d : A) : A := match o with Some a => a | None => d end.

(* the lines handed to the handler as headers: all but Content-Length *)
Definition field_pairs (ls : list hline) : list pair_t :=
  map (fun l => (hl_key l, hl_value l)) (filter (fun l => negb (is_content_length l)) ls).

(* elements of a comma-separated list, without surrounding white space, empty ones left out *)
Fixpoint split_on (c : byte) (l : bytes) : list bytes :=
  match l with
  | [] => [[]]
  | x :: l' => if Byte.eqb x c then [] :: split_on c l'
               else match split_on c l' with
                    | s :: ss => (x :: s) :: ss
                    | [] => [[x]]
                    end
  end.
Definition nonempty (l : bytes) : bool := match l with [] => false | _ => true end.
Definition list_elements (v : bytes) : list bytes :=
  filter nonempty (map trim_space (split_on x2c v)).
(* a list with more elements than allowed counts as empty *)
Definition capped (max : Z) (v : bytes) : list bytes :=
  if (Z.of_nat (List.length (list_elements v)) <=? max)%Z then list_elements v else [].
Definition capped_chunked (max : Z) (v : bytes) : bool := existsb (fun t => equal_fold t (B "chunked")) (capped max v).
Definition mentions_chunked (v : bytes) : bool :=
  existsb (fun t => equal_fold t (B "chunked")) (list_elements v).
(* the first protocol of the list that is known *)
Definition known_upgrade (t : bytes) : option proto :=
  if beqb t (B "http/1.0") || beqb t (B "HTTP/1.0") then Some HTTP10
  else if beqb t (B "http/1.1") || beqb t (B "HTTP/1.1") then Some HTTP11
  else if beqb t (B "h2c") || beqb t (B "H2C") then Some HTTP2
  else None.
Fixpoint first_some {A B} (f : A -> option B) (l : list A) : option B :=
  match l with
  | [] => None
  | a :: l' => match f a with Some b => Some b | None => first_some f l' end
  end.
Definition offered_upgrade (v : bytes) : proto :=
  or_default (first_some known_upgrade (map trim_space (split_on x2c v))) PUnknown.

(* [Means r0 h r]: r is the request r0 after the head h has been received *)
Record Means (r0 : request) (h : head) (r : request) : Prop := {
  mn_method : r_method r = h_method h;
  mn_path : r_path r = h_decoded h;
  mn_proto : r_proto r = h_proto h;
  mn_query : match h_query h with
             | Some q => q_raw (r_query r) = q /\ q_parsed (r_query r) = false
             | None => r_query r = r_query r0
             end;
  mn_headers : kv_pairs (r_headers r) = kv_pairs (r_headers r0) ++ field_pairs (h_lines h);
  mn_clen : r_content_length r =
            or_default (option_map dec_value (last_value (B "content-length") (h_lines h)))
                       (r_content_length r0);
  mn_ctype : r_content_type r =
             or_default (last_value (B "content-type") (h_lines h)) (r_content_type r0);
  mn_conn : r_connection r =
            or_default (last_value (B "connection") (h_lines h)) (r_connection r0);
  mn_upgrade : r_upgrade r =
               or_default (option_map offered_upgrade (last_value (B "upgrade") (h_lines h)))
                          (r_upgrade r0);
  mn_transfer : enc_transfer (r_encoding r) =
                or_default (option_map list_elements (last_value (B "transfer-encoding") (h_lines h)))
                           (enc_transfer (r_encoding r0));
  mn_chunked : enc_chunked (r_encoding r) =
               or_default (option_map mentions_chunked (last_value (B "transfer-encoding") (h_lines h)))
                          (enc_chunked (r_encoding r0));
  mn_content : enc_content (r_encoding r) =
               or_default (option_map list_elements (last_value (B "content-encoding") (h_lines h)))
                          (enc_content (r_encoding r0));
  mn_trailer : enc_trailer (r_encoding r) =
               existsb (named (B "trailer")) (h_lines h) || enc_trailer (r_encoding r0);
  mn_params : r_params r = r_params r0;
  mn_ctx : r_ctx r = r_ctx r0;
  mn_env : r_env r = r_env r0;
  mn_hijacked : r_hijacked r = r_hijacked r0
}.

(* ---- limits ---- *)
Definition keys_size (ls : list hline) : Z := fold_right (fun l a => (len (hl_key l) + a)%Z) 0%Z ls.
Definition values_size (ls : list hline) : Z :=
  fold_right (fun l a => ((if is_content_length l then 0 else len (raw_value l)) + a)%Z) 0%Z ls.
Record limits := Limits {
  lim_line : Z;          (* request line, without the space after the method and the final LF *)
  lim_headers : Z;       (* number of header lines *)
  lim_keys : Z;          (* all names together *)
  lim_values : Z;        (* all values together *)
  lim_value : Z;         (* one value *)
  lim_tokens : Z         (* elements of Transfer-Encoding and Content-Encoding *)
}.
Definition fits (lim : limits) (h : head) : Prop :=
  (len (method_token (h_method h)) + len (target h) + 1 + len (proto_token (h_proto h)) +
     (if h_crlf h then 1 else 0) <= lim_line lim)%Z /\
  (Z.of_nat (List.length (h_lines h)) <= lim_headers lim)%Z /\
  (keys_size (h_lines h) <= lim_keys lim)%Z /\
  (values_size (h_lines h) <= lim_values lim)%Z /\
  Forall (fun l => is_content_length l = false -> (len (raw_value l) <= lim_value lim)%Z) (h_lines h) /\
  Forall (fun l => named (B "transfer-encoding") l = true \/ named (B "content-encoding") l = true ->
                   (Z.of_nat (List.length (list_elements (hl_value l))) <= lim_tokens lim)%Z) (h_lines h).
