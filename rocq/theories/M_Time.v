(* The text of a cookie's expiry date: internal/protocol/http1/serializer.go:33, 291-297.
   c.Expires.In(gmt).Format(time.RFC1123) is a call into Go's standard library: package time is
   modelled as far as this call goes (time.go: Time.IsZero, absDate, absWeekday, absClock;
   format.go: Format with the layout "Mon, 02 Jan 2006 15:04:05 MST"). *)
From Verif Require Import M_Base.
Open Scope Z_scope.

(* an instant: seconds and nanoseconds since 1970-01-01 00:00:00 UTC.  The location of a
   time.Time does not matter: In(gmt) replaces it *)
Record gtime := GTime { t_unix : Z; t_nsec : Z }.
(* time.go  IsZero: January 1, year 1, 00:00:00 UTC *)
Definition is_zero (t : gtime) : bool := (t_unix t =? -62135596800) && (t_nsec t =? 0).

(* time.go  absoluteZeroYear: a year before all times, the first of a cycle of 400 years *)
Definition zero_year : Z := -292277022399.
(* time.go  unixToInternal + internalToAbsolute *)
Definition to_abs : Z := 9223372028715321600.
(* time.go  Time.abs: uint64 *)
Definition t_abs (t : gtime) : Z := (t_unix t + to_abs) mod 18446744073709551616.
(* time.go  absDate, the year and the day in the year *)
Definition abs_year (d : Z) : Z * Z :=
  let n := d / 146097 in
  let y := 400 * n in
  let d := d - 146097 * n in
  let n := d / 36524 in
  let n := n - n / 4 in
  let y := y + 100 * n in
  let d := d - 36524 * n in
  let n := d / 1461 in
  let y := y + 4 * n in
  let d := d - 1461 * n in
  let n := d / 365 in
  let n := n - n / 4 in
  (y + n + zero_year, d - 365 * n).
(* time.go  isLeap *)
Definition is_leap (y : Z) : bool := (y mod 4 =? 0) && (negb (y mod 100 =? 0) || (y mod 400 =? 0)).
(* time.go  daysBefore *)
Definition days_before (m : Z) : Z := nth (Z.to_nat m) [0; 31; 59; 90; 120; 151; 181; 212; 243; 273; 304; 334; 365] 0.
(* time.go  absDate, the month (from 1) and the day *)
Definition month_day (leap : bool) (yday : Z) : Z * Z :=
  if leap && (yday =? 59) then (2, 29) else
  let day := if leap && (59 <? yday) then yday - 1 else yday in
  let m := day / 31 in
  let e := days_before (m + 1) in
  if e <=? day then (m + 2, day - e + 1) else (m + 1, day - days_before m + 1).
(* time.go  absWeekday: Sunday is 0, the absolute zero a Monday *)
Definition abs_weekday (abs : Z) : Z := (abs + 86400) mod 604800 / 86400.
(* format.go  longDayNames, longMonthNames, their first three letters *)
Definition day_names : list bytes := [B "Sun"; B "Mon"; B "Tue"; B "Wed"; B "Thu"; B "Fri"; B "Sat"].
Definition month_names : list bytes := [B "Jan"; B "Feb"; B "Mar"; B "Apr"; B "May"; B "Jun"; B "Jul"; B "Aug"; B "Sep"; B "Oct"; B "Nov"; B "Dec"].
(* format.go  appendInt: at least [width] digits *)
Definition append_int (x : Z) (width : nat) : bytes :=
  let u := itoa_N (Z.to_N (Z.abs x)) in
  (if x <? 0 then B "-" else []) ++ repeat x30 (width - List.length u) ++ u.
(* format.go  Format(RFC1123) in the zone "GMT" *)
Definition rfc1123 (t : gtime) : bytes :=
  let abs := t_abs t in
  let '(year, yday) := abs_year (abs / 86400) in
  let '(month, day) := month_day (is_leap year) yday in
  let sec := abs mod 86400 in
  nth (Z.to_nat (abs_weekday abs)) day_names [] ++ B ", " ++ append_int day 2 ++ B " " ++
  nth (Z.to_nat (month - 1)) month_names [] ++ B " " ++ append_int year 4 ++ B " " ++
  append_int (sec / 3600) 2 ++ B ":" ++ append_int (sec mod 3600 / 60) 2 ++ B ":" ++ append_int (sec mod 60) 2 ++ B " GMT".
(* serializer.go:291-297: what a cookie with these Expires gets *)
Definition expires_of (t : gtime) : option bytes := if is_zero t then None else Some (rfc1123 t).
