(* Small specification: what a client does with cookies, RFC 6265 section 5; and the calendar. *)
From Coq Require Import Permutation.
From Verif Require Import M_Base M_KeyValue M_Response M_Time S_KeyValue S_Response S_Values.

(* ---- the calendar: day after day, from 1 January 1970 ---- *)
Record date := Date { dt_year : Z; dt_month : Z; dt_day : Z }.
Open Scope Z_scope.
Definition leap_year (y : Z) : Prop := (y mod 4 = 0 /\ y mod 100 <> 0) \/ y mod 400 = 0.
Inductive MonthLength (y : Z) : Z -> Z -> Prop :=
| Ml_long : forall m, In m [1; 3; 5; 7; 8; 10; 12] -> MonthLength y m 31
| Ml_short : forall m, In m [4; 6; 9; 11] -> MonthLength y m 30
| Ml_leap : leap_year y -> MonthLength y 2 29
| Ml_february : ~ leap_year y -> MonthLength y 2 28.
Inductive Tomorrow : date -> date -> Prop :=
| Tm_day : forall y m d n, MonthLength y m n -> 1 <= d -> d < n -> Tomorrow (Date y m d) (Date y m (d + 1))
| Tm_month : forall y m n, MonthLength y m n -> m < 12 -> Tomorrow (Date y m n) (Date y (m + 1) 1)
| Tm_year : forall y, Tomorrow (Date y 12 31) (Date (y + 1) 1 1).
(* the date of the n-th day *)
Inductive OnDay : Z -> date -> Prop :=
| Od_epoch : OnDay 0 (Date 1970 1 1)
| Od_after : forall n a b, OnDay n a -> Tomorrow a b -> OnDay (n + 1) b
| Od_before : forall n a b, OnDay (n + 1) b -> Tomorrow a b -> OnDay n a.

(* ---- 5.1.1 dates ---- *)
Definition code (b : byte) : Z := Z.of_N (Byte.to_N b).
Definition within (lo hi : Z) (b : byte) : bool := (lo <=? code b) && (code b <=? hi).
Definition delimiter (b : byte) : bool :=
  within 9 9 b || within 32 47 b || within 59 64 b || within 91 96 b || within 123 126 b.
(* the maximal pieces without delimiters *)
Fixpoint date_tokens (s : bytes) : list bytes :=
  match s with
  | [] => []
  | c :: s' =>
      if delimiter c then date_tokens s'
      else match s' with
           | d :: _ => if delimiter d then [c] :: date_tokens s'
                       else match date_tokens s' with t :: ts => (c :: t) :: ts | [] => [[c]] end
           | [] => [[c]]
           end
  end.
Definition digit (b : byte) : bool := within 48 57 b.
(* the digits a text starts with, and the rest *)
Fixpoint leading_digits (s : bytes) : bytes * bytes :=
  match s with
  | c :: s' => if digit c then let '(ds, r) := leading_digits s' in (c :: ds, r) else ([], s)
  | [] => ([], [])
  end.
Definition value_of (ds : bytes) : Z := fold_left (fun n c => 10 * n + (code c - 48)) ds 0.
(* [lo] to [hi] digits, not followed by another *)
Definition number (lo hi : nat) (s : bytes) : option (Z * bytes) :=
  let '(ds, r) := leading_digits s in
  if Nat.leb lo (List.length ds) && Nat.leb (List.length ds) hi then Some (value_of ds, r) else None.
Definition time_token (s : bytes) : option (Z * Z * Z) :=
  match number 1 2 s with
  | Some (h, c :: s1) =>
      if Byte.eqb c x3a then
        match number 1 2 s1 with
        | Some (m, c2 :: s2) => if Byte.eqb c2 x3a then match number 1 2 s2 with Some (x, _) => Some (h, m, x) | None => None end else None
        | _ => None
        end
      else None
  | _ => None
  end.
Definition months : list bytes := map B ["jan"; "feb"; "mar"; "apr"; "may"; "jun"; "jul"; "aug"; "sep"; "oct"; "nov"; "dec"]%string.
Fixpoint month_from (n : Z) (l : list bytes) (s : bytes) : option Z :=
  match l with
  | [] => None
  | m :: l' => if same_keyb (firstn 3 s) m then Some n else month_from (n + 1) l' s
  end.
Definition month_token (s : bytes) : option Z := month_from 1 months s.
Record found := Found { fd_time : option (Z * Z * Z); fd_day : option Z; fd_month : option Z; fd_year : option Z }.
Definition take_token (f : found) (s : bytes) : found :=
  match fd_time f, time_token s with
  | None, Some t => Found (Some t) (fd_day f) (fd_month f) (fd_year f)
  | _, _ =>
  match fd_day f, number 1 2 s with
  | None, Some (d, _) => Found (fd_time f) (Some d) (fd_month f) (fd_year f)
  | _, _ =>
  match fd_month f, month_token s with
  | None, Some m => Found (fd_time f) (fd_day f) (Some m) (fd_year f)
  | _, _ =>
  match fd_year f, number 2 4 s with
  | None, Some (y, _) => Found (fd_time f) (fd_day f) (fd_month f) (Some y)
  | _, _ => f
  end end end end.
Definition full_year (y : Z) : Z :=
  if (70 <=? y) && (y <=? 99) then y + 1900 else if (0 <=? y) && (y <=? 69) then y + 2000 else y.
(* the year a client takes a year for: the sign and two digits of the century are not read *)
Definition year_read (y : Z) : option Z :=
  if (Z.abs y <=? 9999) && (1601 <=? full_year (Z.abs y)) then Some (full_year (Z.abs y)) else None.
(* the instant a date text names, in seconds since the first day *)
Inductive NamesInstant (s : bytes) : Z -> Prop :=
| Names_instant : forall h m x d mo y n,
    fold_left take_token (date_tokens s) (Found None None None None) = Found (Some (h, m, x)) (Some d) (Some mo) (Some y) ->
    1601 <= full_year y -> h <= 23 -> m <= 59 -> x <= 59 ->
    OnDay n (Date (full_year y) mo d) -> NamesInstant s (86400 * n + 3600 * h + 60 * m + x).

(* ---- 5.2 what a Set-Cookie line says (read_set_cookie finds the name, the value and the
   attributes) ---- *)
Definition attr_value (a : bytes * option bytes) : bytes := match snd a with Some v => v | None => [] end.
Definition is_attr (n : bytes) (a : bytes * option bytes) : bool := same_keyb (fst a) n.
Definition last_of {A} (l : list A) : option A := match rev l with x :: _ => Some x | [] => None end.
(* 5.2.2 Max-Age *)
Definition seconds (s : bytes) : option Z :=
  match s with
  | c :: r => if forallb digit r then
                if digit c then Some (S_Agent.value_of s) else if Byte.eqb c x2d then Some (- S_Agent.value_of r) else None
              else None
  | [] => None
  end.
Definition some_of {A} (l : list (option A)) : list A := flat_map (fun o => match o with Some x => [x] | None => [] end) l.
Definition max_age (as_ : list (bytes * option bytes)) : option Z :=
  last_of (some_of (map (fun a => seconds (attr_value a)) (filter (is_attr (B "Max-Age")) as_))).
(* until when a cookie is kept *)
Inductive life := Session | Until (t : Z) | Ended.
(* 5.2.1, 5.3 step 3: Max-Age before Expires, the last that can be read *)
Inductive Lasts (now : Z) (as_ : list (bytes * option bytes)) : life -> Prop :=
| La_age : forall d, max_age as_ = Some d -> Lasts now as_ (if 0 <? d then Until (now + d) else Ended)
| La_expires : forall pre a post z, max_age as_ = None -> as_ = pre ++ a :: post -> is_attr (B "Expires") a = true ->
    NamesInstant (attr_value a) z -> (forall b z', In b post -> is_attr (B "Expires") b = true -> ~ NamesInstant (attr_value b) z') ->
    Lasts now as_ (Until z)
| La_session : max_age as_ = None -> (forall a z, In a as_ -> is_attr (B "Expires") a = true -> ~ NamesInstant (attr_value a) z) ->
    Lasts now as_ Session.
(* 5.2.3 Domain: none if empty; a leading dot does not count *)
Definition domain_of (as_ : list (bytes * option bytes)) : bytes :=
  match last_of (filter nonempty (map attr_value (filter (is_attr (B "Domain")) as_))) with
  | Some d => map lower (match d with c :: r => if Byte.eqb c x2e then r else d | [] => [] end)
  | None => []
  end.
(* 5.2.4 Path: [dp], the default path, unless it starts with a slash *)
Definition path_of (dp : bytes) (as_ : list (bytes * option bytes)) : bytes :=
  match last_of (map attr_value (filter (is_attr (B "Path")) as_)) with
  | Some (c :: p) => if Byte.eqb c x2f then c :: p else dp
  | _ => dp
  end.
Definition ends_with (s suffix : bytes) : bool :=
  Nat.leb (List.length suffix) (List.length s) && beqb (skipn (List.length s - List.length suffix) s) suffix.
(* 5.1.3, for host names *)
Definition domain_match (host d : bytes) : bool := beqb host d || ends_with host (x2e :: d).
(* a cookie as it is kept; domain [] means: only for the host it came from *)
Record stored := Stored { sd_name : bytes; sd_value : bytes; sd_domain : bytes; sd_path : bytes; sd_life : life; sd_secure : bool; sd_httponly : bool }.
Inductive Reads (now : Z) (host dp line : bytes) : stored -> Prop :=
| Reads_cookie : forall n v as_ l, read_set_cookie line = Some (n, v, as_) -> n <> [] ->
    (domain_of as_ = [] \/ domain_match host (domain_of as_) = true) -> Lasts now as_ l ->
    Reads now host dp line (Stored n v (domain_of as_) (path_of dp as_) l (existsb (is_attr (B "Secure")) as_) (existsb (is_attr (B "HttpOnly")) as_)).

(* ---- 5.3 what is kept ---- *)
Definition same_cookie (a b : stored) : bool :=
  beqb (sd_name a) (sd_name b) && beqb (sd_domain a) (sd_domain b) && beqb (sd_path a) (sd_path b).
Fixpoint keep (s : stored) (j : list stored) : list stored :=
  match j with
  | [] => [s]
  | x :: j' => if same_cookie x s then s :: j' else x :: keep s j'
  end.
(* the lines of one response, at time [now] *)
Inductive Receives (now : Z) (host dp : bytes) : list bytes -> list stored -> list stored -> Prop :=
| Rc_none : forall j, Receives now host dp [] j j
| Rc_cookie : forall line lines s j j', Reads now host dp line s -> Receives now host dp lines (keep s j) j' -> Receives now host dp (line :: lines) j j'
| Rc_ignored : forall line lines j j', (forall s, ~ Reads now host dp line s) -> Receives now host dp lines j j' -> Receives now host dp (line :: lines) j j'.

(* ---- 5.4 what is sent: to [host] for [path], at time [now], over https or not ---- *)
Definition alive (now : Z) (s : stored) : bool :=
  match sd_life s with Session => true | Until t => now <=? t | Ended => false end.
Definition starts_with (s p : bytes) : bool := beqb (firstn (List.length p) s) p.
Definition path_match (path cp : bytes) : bool :=
  beqb path cp || (starts_with path cp && (ends_with cp [x2f] || starts_with (skipn (List.length cp) path) [x2f])).
Definition goes (now : Z) (host path : bytes) (https : bool) (s : stored) : bool :=
  alive now s && path_match path (sd_path s) && (https || negb (sd_secure s)) &&
  (match sd_domain s with [] => true | d => domain_match host d end).
(* in any order *)
Definition Sends (now : Z) (host path : bytes) (https : bool) (j : list stored) (sent : list entry) : Prop :=
  Permutation sent (map (fun s => (sd_name s, sd_value s)) (filter (goes now host path https) j)).

(* ---- what a handler that sets a cookie means ---- *)
(* [t]: the instant the cookie expires, if one is given *)
Definition meant (now : Z) (dp : bytes) (c : cookie) (t : option Z) : stored :=
  Stored (ck_name c) (ck_value c) (map lower (ck_domain c)) (match ck_path c with [] => dp | p => p end)
    (if 0 <? ck_maxage c then Until (now + ck_maxage c) else if ck_maxage c <? 0 then Ended
     else match t with Some z => Until z | None => Session end)
    (ck_secure c) (ck_httponly c).
Definition no_age (c : cookie) : cookie := cookie_set_maxage 0 c.
Definition when (t : gtime) : option Z := if is_zero t then None else Some (t_unix t).
(* cookies a server at [host] can set: their text is not mistaken for structure, a path starts
   with a slash, the domain is one of the host, the date one of the years 1601 to 9999 *)
Definition Settable (host : bytes) (c : cookie) (t : gtime) : Prop :=
  plain_text (ck_name c) /\ ~ In x3d (ck_name c) /\ ck_name c <> [] /\ plain_text (ck_value c) /\ plain_text (ck_samesite c) /\
  plain_text (ck_path c) /\ (ck_path c = [] \/ exists r, ck_path c = x2f :: r) /\
  plain_text (ck_domain c) /\ (forall r, ck_domain c <> x2e :: r) /\ (ck_domain c = [] \/ domain_match host (map lower (ck_domain c)) = true) /\
  ck_expires c = expires_of t /\ (is_zero t = true \/ -11644473600 <= t_unix t < 253402300800).
(* the cookies of a client that has been sent these, one after the other *)
Definition kept_after (now : Z) (dp : bytes) (cts : list (cookie * gtime)) (j : list stored) : list stored :=
  fold_left (fun j ct => keep (meant now dp (fst ct) (when (snd ct))) j) cts j.
(* no two cookies of one name, domain and path *)
Definition NoTwins (j : list stored) : Prop := ForallOrdPairs (fun a b => same_cookie a b = false) j.

(* ---- RFC 7231 7.1.1.1: the preferred format of a date ---- *)
Definition the_digit (z : Z) : byte := nth (Z.to_nat z) [x30; x31; x32; x33; x34; x35; x36; x37; x38; x39] x30.
Definition two (z : Z) : bytes := [the_digit (z / 10); the_digit (z mod 10)].
Definition four (z : Z) : bytes := two (z / 100) ++ two (z mod 100).
(* day 0 was a Thursday *)
Definition weekday_name (n : Z) : bytes :=
  nth (Z.to_nat (n mod 7)) (map B ["Thu"; "Fri"; "Sat"; "Sun"; "Mon"; "Tue"; "Wed"]%string) [].
Definition month_name (m : Z) : bytes :=
  nth (Z.to_nat (m - 1)) (map B ["Jan"; "Feb"; "Mar"; "Apr"; "May"; "Jun"; "Jul"; "Aug"; "Sep"; "Oct"; "Nov"; "Dec"]%string) [].
(* the date of an instant, in seconds since the first day *)
Inductive ImfDate (z : Z) : bytes -> Prop :=
| Imf_date : forall n y m d h mi s, OnDay n (Date y m d) -> 0 <= h <= 23 -> 0 <= mi <= 59 -> 0 <= s <= 59 ->
    z = 86400 * n + 3600 * h + 60 * mi + s ->
    ImfDate z (weekday_name n ++ B ", " ++ two d ++ B " " ++ month_name m ++ B " " ++ four y ++ B " " ++
               two h ++ B ":" ++ two mi ++ B ":" ++ two s ++ B " GMT").
