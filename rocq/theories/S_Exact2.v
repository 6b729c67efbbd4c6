(* Specification for more exact statements: what is read from every query, every Cookie header,
   every header value with parameters, every list of codings, and every Host. *)
From Verif Require Import M_Base M_Status M_KeyValue M_Query M_Client S_Head S_KeyValue S_Query S_Exact.

(* ---- C15, C16: any text between '?' and the end of the target ---- *)
(* the decoded text up to the first piece that has a value but no name, and its entries *)
Inductive UpToNameless : bytes -> bytes -> list entry -> Prop :=
| UN_here : forall d, UpToNameless (x3d :: d) [] []
| UN_more : forall p e d a l, ~ In x26 p -> Piece p e -> UpToNameless d a l ->
    UpToNameless (p ++ x26 :: d) (p ++ x26 :: a) (e :: l).
(* what there is to be read from a query, and the error *)
Inductive Reading : bytes -> list entry -> option http_error -> Prop :=
| Rd_good : forall raw d l, LooselyDecodes raw d -> QueryText d l -> Reading raw l None
| Rd_nameless : forall raw d a l, LooselyDecodes raw d -> UpToNameless d a l -> Reading raw l (Some ErrBadQuery)
| Rd_escape : forall a d t, LooselyDecodes a d -> (List.length t < 2)%nat -> Reading (a ++ x25 :: t) [] (Some ErrURIDecoding).
(* the answers to a history of accesses: the error is told once, then it is as if the query ended
   where the error was found *)
Inductive Answers (l : list entry) : option http_error -> list q_access -> list q_answer -> Prop :=
| An_good : forall accesses rs, Forall2 (q_right l) accesses rs -> Answers l None accesses rs
| An_none : forall e, Answers l (Some e) [] []
| An_get : forall e k accesses rs, Forall2 (q_right l) accesses rs -> Answers l (Some e) (AGet k :: accesses) (QA (QErr e) :: rs)
| An_all : forall e accesses rs, Forall2 (q_right l) accesses rs -> Answers l (Some e) (AAll :: accesses) (QAll l (Some e) :: rs).
(* what is found in the place of the raw query afterwards: the decoded text lies over its beginning *)
Definition over (d raw : bytes) : bytes := d ++ skipn (List.length d) raw.
Inductive Leaves : bytes -> bytes -> Prop :=
| Lv_good : forall raw d l, LooselyDecodes raw d -> QueryText d l -> Leaves raw (over (spaced d) raw)
| Lv_nameless : forall raw d a b l, LooselyDecodes raw d -> UpToNameless d a l -> d = a ++ b -> Leaves raw (over (spaced a ++ b) raw)
(* only what is before the last escape has been moved *)
| Lv_escape : forall a d b t, LooselyDecodes a d -> (a = [] \/ exists a' h l d', a = a' ++ [x25; h; l] /\ LooselyDecodes a' d') ->
    ~ In x25 b -> (List.length t < 2)%nat -> Leaves (a ++ b ++ x25 :: t) (over d (a ++ b ++ x25 :: t)).

(* ---- C18: any text of a Cookie header; false: reported as malformed after these pairs ---- *)
Inductive CookieHeader : bytes -> list entry -> bool -> Prop :=
| CH_end : CookieHeader [] [] true
| CH_last : forall k v, k <> [] -> ~ In x3d k -> ~ In x3b v -> CookieHeader (k ++ x3d :: v) [(k, v)] true
(* a name goes up to '=' whatever it contains, a value up to ';'; one space may follow *)
| CH_more : forall k v gap d l ok, k <> [] -> ~ In x3d k -> ~ In x3b v ->
    gap = [SP] \/ (gap = [] /\ forall r, d <> SP :: r) -> CookieHeader d l ok ->
    CookieHeader (k ++ x3d :: v ++ x3b :: gap ++ d) ((k, v) :: l) ok
| CH_nameless : forall d, CookieHeader (x3d :: d) [] false
| CH_no_value : forall d, d <> [] -> ~ In x3d d -> CookieHeader d [] false.

(* ---- C49: any header value ---- *)
(* the text up to the first semicolon *)
Definition UpToSemicolon (s v : bytes) : Prop := ~ In x3b v /\ (s = v \/ exists r, s = v ++ x3b :: r).
(* what follows the first place where [sub] is found *)
Definition After (sub s b : bytes) : Prop :=
  exists a, s = a ++ sub ++ b /\ forall a' b', s = a' ++ sub ++ b' -> (List.length a <= List.length a')%nat.
Definition Nowhere (sub s : bytes) : Prop := forall a b, s <> a ++ sub ++ b.
(* the parameter written behind [sub] *)
Inductive Param (sub s or : bytes) : bytes -> Prop :=
| Pa_found : forall b v, After sub s b -> UpToSemicolon b v -> Param sub s or v
| Pa_absent : Nowhere sub s -> Param sub s or or.
(* decimal numbers with an optional sign that fit 64 bits *)
Fixpoint dec_number (s : bytes) (n : Z) : Z :=
  match s with [] => n | c :: s' => dec_number s' (10 * n + (bZ c - 48))%Z end.
Inductive Number : bytes -> Z -> Prop :=
| Nu_sign : forall sign ds n, sign = [] \/ sign = B "+" \/ sign = B "-" -> ds <> [] ->
    Forall (fun c => (48 <= bN c <= 57)%N) ds ->
    n = (if beqb sign (B "-") then - dec_number ds 0 else dec_number ds 0)%Z ->
    (- two63 <= n < two63)%Z -> Number (sign ++ ds) n.

(* ---- C06: any list of codings ---- *)
(* the white space characters of Unicode, in UTF-8 *)
Definition white_spaces : list bytes :=
  [[x09]; [x0a]; [x0b]; [x0c]; [x0d]; [x20]; [xc2; x85]; [xc2; xa0]; [xe1; x9a; x80]]
  ++ map (fun c => [xe2; x80; c]) [x80; x81; x82; x83; x84; x85; x86; x87; x88; x89; x8a; xa8; xa9; xaf]
  ++ [[xe2; x81; x9f]; [xe3; x80; x80]].
Inductive White : bytes -> Prop :=
| Wh_nil : White []
| Wh_more : forall w s, In w white_spaces -> White s -> White (w ++ s).
(* [Trimmed s e]: e is s without the white space around it *)
Definition Trimmed (s e : bytes) : Prop :=
  (exists a b, s = a ++ e ++ b /\ White a /\ White b) /\
  (forall w r, In w white_spaces -> e <> w ++ r) /\ (forall w r, In w white_spaces -> e <> r ++ w).
(* the elements of a list, empty ones left out *)
Definition kept (e : bytes) : list bytes := match e with [] => [] | _ => [e] end.
Inductive Elements : bytes -> list bytes -> Prop :=
| El_last : forall p e, ~ In x2c p -> Trimmed p e -> Elements p (kept e)
| El_more : forall p e s l, ~ In x2c p -> Trimmed p e -> Elements s l -> Elements (p ++ x2c :: s) (kept e ++ l).

(* ---- C64: any Host ---- *)
(* the text up to the first colon *)
Definition UpToColon (s v : bytes) : Prop := ~ In x3a v /\ (s = v \/ exists r, s = v ++ x3a :: r).

(* ---- C56: the pieces in which n bytes come, when they arrive in these reads ---- *)
Inductive Pieces : nat -> list bytes -> list bytes -> Prop :=
| Pc_last : forall n d ds, (0 < n <= List.length d)%nat -> Pieces n (d :: ds) [firstn n d]
| Pc_more : forall n d ds l, (List.length d < n)%nat -> Pieces (n - List.length d) ds l -> Pieces n (d :: ds) (d :: l).
(* the calls a callback gets, one for each piece until it refuses one *)
Inductive Calls (cb : list bytes -> bool) (seen : list bytes) : list bytes -> list bytes -> bool -> Prop :=
| Ca_all : Calls cb seen [] seen true
| Ca_refused : forall p ps, cb (seen ++ [p]) = false -> Calls cb seen (p :: ps) (seen ++ [p]) false
| Ca_more : forall p ps out ok, cb (seen ++ [p]) = true -> Calls cb (seen ++ [p]) ps out ok -> Calls cb seen (p :: ps) out ok.
(* the reads of the connection up to the first that fails; bytes pushed back are read first *)
Fixpoint arrivals (net : list (bytes * option neterr)) : list bytes :=
  match net with (d, None) :: net' => d :: arrivals net' | _ => [] end.
Definition reads_of (c : client) : list bytes := kept (cl_pending c) ++ arrivals (cl_net c).
