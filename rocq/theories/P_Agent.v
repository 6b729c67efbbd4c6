(* C108, C109: cookies as a client keeps them and sends them back. *)
From Coq Require Import List ZArith Permutation.
From Verif Require Import M_Base M_KeyValue M_Response M_Time M_CookieJar S_KeyValue S_Response S_Values S_Agent L_Time2 L_Time3 L_Time4 L_Time5 L_Agent L_Agent2 L_AgentEx.
Import ListNotations.
Open Scope Z_scope.

(* ---- C108: a cookie a handler sets is what the client sends back ---- *)
(* The Set-Cookie fields of a response are the cookies of the response, in order, each in one line,
   whatever other fields there are (C20_framed_partial: sent_fields are the fields a client reads). *)
Theorem C108_lines : forall host defs past f, Forall (fun e => ~ same_key (fst e) (B "Set-Cookie")) (f_headers f ++ defs) ->
  Forall (fun c => exists t, Settable host c t) (f_cookies f) ->
  all_values (map trimmed (sent_fields defs past f)) (B "Set-Cookie") = map (set_cookie_text (B "MaxAge")) (f_cookies f).
Proof. exact lines_sent. Qed.
Print Assumptions C108_lines.
(* What a client makes of such a line is the cookie that was meant, but for MaxAge. *)
Theorem C108_reads_exact : forall now host dp c t s, Settable host c t ->
  (Reads now host dp (set_cookie_text (B "MaxAge") c) s <-> s = meant now dp (no_age c) (when t)).
Proof. exact settable_read. Qed.
Print Assumptions C108_reads_exact.
(* Without MaxAge: the client keeps exactly the cookies that were meant, and when it sends any of
   them again the handler reads what the client sent. *)
Theorem C108_partial : forall now host dp cts j j', Forall (fun ct => Settable host (fst ct) (snd ct) /\ ck_maxage (fst ct) = 0) cts ->
  NoTwins j -> Forall good_cookie (map pair_of j) ->
  Receives now host dp (map (fun ct => set_cookie_text (B "MaxAge") (fst ct)) cts) j j' ->
  j' = kept_after now dp cts j /\ NoTwins j' /\ Forall good_cookie (map pair_of j') /\
  forall later path https sent s, Sends later host path https j' sent ->
    all_values (kv_pairs s) (B "cookie") = [cookie_text sent] -> request_cookies s = Some sent.
Proof. exact comes_back. Qed.
Print Assumptions C108_partial.
(* Of several cookies of one name, domain and path the last one counts; others are left alone. *)
Theorem C108_last : forall now dp cts j, NoTwins j -> NoTwins (kept_after now dp cts j) /\
  forall e, In e (kept_after now dp cts j) <->
    (exists pre ct post, cts = pre ++ ct :: post /\ e = meant now dp (fst ct) (when (snd ct)) /\
       forall ct', In ct' post -> same_cookie e (meant now dp (fst ct') (when (snd ct'))) = false) \/
    (In e j /\ forall ct, In ct cts -> same_cookie e (meant now dp (fst ct) (when (snd ct))) = false).
Proof. exact kept_in. Qed.
Print Assumptions C108_last.
(* A cookie deleted by MaxAge -1 is kept for good: the attribute is written "MaxAge=0", the clients'
   name for it is Max-Age. *)
Theorem C108_refuted : exists c, ck_maxage c = -1 /\ (forall host, Settable host c no_time) /\
  (forall now dp t later, alive later (meant now dp c t) = false) /\
  forall now host dp, (exists s, Reads now host dp (set_cookie_text (B "MaxAge") c) s) /\
    forall s, Reads now host dp (set_cookie_text (B "MaxAge") c) s -> forall later, alive later s = true.
Proof. exact gone_stays. Qed.
Print Assumptions C108_refuted.
(* For the same reason a cookie meant for an hour lasts as long as the client is open. *)
Theorem C108_age_refuted : exists c, ck_maxage c = 3600 /\ (forall host, Settable host c no_time) /\
  forall now host dp s, Reads now host dp (set_cookie_text (B "MaxAge") c) s -> sd_life s = Session.
Proof. exact hour_lasts. Qed.
Print Assumptions C108_age_refuted.
(* Names: a client keeps "id" and "ID" apart and sends both, the jar a handler asks does not: asked
   for "ID" it gives the value of "id". *)
Theorem C108_names_refuted : exists cts sent, (forall host, Forall (fun ct => Settable host (fst ct) (snd ct) /\ ck_maxage (fst ct) = 0) cts) /\
  (forall now host dp j, Receives now host dp (map (fun ct => set_cookie_text (B "MaxAge") (fst ct)) cts) [] j ->
     forall later, Sends later host dp false j sent) /\
  In (B "ID", B "b") sent /\
  forall s, kv_pairs s = [(B "Cookie", cookie_text sent)] -> request_cookies s = Some sent /\ pairs_get sent (B "ID") = Some (B "a").
Proof. exact names_mixed. Qed.
Print Assumptions C108_names_refuted.
(* a basket for all hosts of example.org, set at www.example.org: sent below /shop over https until
   the date, and not otherwise *)
Example C108_basket : forall now s, Reads now www (B "/") (set_cookie_text (B "MaxAge") basket) s ->
  set_cookie_text (B "MaxAge") basket =
    B "basket=3 apples; Path=/shop; Domain=Example.org; Expires=Tue, 14 Nov 2023 22:13:20 GMT; SameSite=Lax; Secure" /\
  s = Stored (B "basket") (B "3 apples") (B "example.org") (B "/shop") (Until 1700000000) true false /\
  goes 1699999999 (B "example.org") (B "/shop/pay") true s = true /\ goes 1699999999 (B "example.org") (B "/shopping") true s = false /\
  goes 1699999999 (B "notexample.org") (B "/shop") true s = false /\ goes 1699999999 www (B "/shop") false s = false /\
  goes 1700000001 www (B "/shop") true s = false.
Proof.
  intros now s H. apply (C108_reads_exact now www (B "/") basket ex_time s basket_settable) in H. subst s. split; [vm_compute; reflexivity|].
  split; [reflexivity|]. repeat split; vm_compute; reflexivity.
Qed.

(* ---- C109: an expiry date means the same instant to the client ---- *)
(* The years 1601 to 9999. *)
Theorem C109_partial : forall t, -11644473600 <= t_unix t < 253402300800 -> forall z, NamesInstant (rfc1123 t) z <-> z = t_unix t.
Proof. exact expiry_read. Qed.
Print Assumptions C109_partial.
(* What a client makes of any instant: h:mi:s on the day n, which is d.m.y.  Instants before
   the year -292277022399 are written like those 2^64 seconds later. *)
Theorem C109_exact : forall t u y m d h mi s n, -9223372036854775808 <= t_unix t < 9223372036854775808 ->
  u = (if t_unix t <? -9223372028715321600 then t_unix t + 18446744073709551616 else t_unix t) ->
  OnDay n (Date y m d) -> 0 <= h <= 23 -> 0 <= mi <= 59 -> 0 <= s <= 59 -> u = 86400 * n + 3600 * h + 60 * mi + s ->
  rfc1123 t = rfc1123 (GTime u 0) /\
  forall z, NamesInstant (rfc1123 t) z <->
    exists y' n', year_read y = Some y' /\ OnDay n' (Date y' m d) /\ z = 86400 * n' + 3600 * h + 60 * mi + s.
Proof. exact expiry_all. Qed.
Print Assumptions C109_exact.
(* No date is written exactly for the beginning of the year 1, the zero value of Go. *)
Theorem C109_zero_exact : forall t, expires_of t = None <-> t_nsec t = 0 /\ exists n, OnDay n (Date 1 1 1) /\ t_unix t = 86400 * n.
Proof. exact no_expiry. Qed.
Print Assumptions C109_zero_exact.
(* The text is the date of that instant in the preferred format: weekday, day, month, year, time. *)
Theorem C109_text_partial : forall t, -62167219200 <= t_unix t < 253402300800 -> ImfDate (t_unix t) (rfc1123 t).
Proof. exact imf_text. Qed.
Print Assumptions C109_text_partial.
(* A date of the year 50, long past, is read as one of the year 2050. *)
Theorem C109_refuted : exists t z, is_zero t = false /\ rfc1123 t = B "Sat, 01 Jan 0050 00:00:00 GMT" /\ NamesInstant (rfc1123 t) z /\ t_unix t < 0 /\ 0 < z.
Proof. exact year_fifty. Qed.
Print Assumptions C109_refuted.
(* A date behind the year 9999, meant as "never", can not be read: the cookie ends with the session. *)
Theorem C109_never_refuted : exists t, is_zero t = false /\ rfc1123 t = B "Sat, 01 Jan 10000 00:00:00 GMT" /\ forall z, ~ NamesInstant (rfc1123 t) z.
Proof. exact year_myriad. Qed.
Print Assumptions C109_never_refuted.
Example C109_years : year_read 2026 = Some 2026 /\ year_read 50 = Some 2050 /\ year_read (-44) = Some 2044 /\ year_read 1066 = None /\ year_read 10000 = None.
Proof. repeat split. Qed.
Example C109_leap_day : rfc1123 (GTime 951782399 5) = B "Mon, 28 Feb 2000 23:59:59 GMT" /\ rfc1123 (GTime 951782400 0) = B "Tue, 29 Feb 2000 00:00:00 GMT".
Proof. split; vm_compute; reflexivity. Qed.
