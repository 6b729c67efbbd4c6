(* Properties C44, C45, C46, C54: log escaping, token tables, configuration, addresses. *)
From Verif Require Import M_Base M_Status M_Method M_Proto M_Escape M_Config M_Address S_Values L_Tables L_Tables2 L_Values.

(* ---------------------------------------------------------------- C44 *)
(* No control character (below 0x20, or 0x7f) ever appears in an escaped path: every byte of
   it is printable ASCII or a continuation byte 0x80-0xbf. *)
Theorem C44_no_controls_partial : forall p x, In x (escape p) -> printable x \/ utf8_tail x.
Proof. exact escaped_bytes. Qed.
Print Assumptions C44_no_controls_partial.
Theorem C44_printable_unchanged : forall p, Forall printable p -> escape p = p.
Proof. exact escaped_same. Qed.
Print Assumptions C44_printable_unchanged.
(* For paths of 7-bit bytes the full claim holds. *)
Theorem C44_ascii_partial : forall p x, Forall (fun c => (bN c < 128)%N) p -> In x (escape p) -> printable x.
Proof. exact escaped_ascii. Qed.
Print Assumptions C44_ascii_partial.
(* Missing for the full C44, and false: the loop runs over runes, so the continuation bytes of
   a multi-byte rune are copied.  Here 0x9b (the 8-bit control CSI) reaches the log. *)
Theorem C44_refuted : exists p x, p = [x2f; xc2; x9b] /\ In x (escape p) /\ ~ printable x.
Proof. exists [x2f; xc2; x9b], x9b. split; [reflexivity|]. split; [vm_compute; tauto|]. intros [_ H]. vm_compute in H. apply H. reflexivity. Qed.
Print Assumptions C44_refuted.
Example C44_case : escape (B "/a" ++ CRLF ++ B "GET" ++ [x00; x7f; xff]) = B "/a\r\nGET\0\?\?".
Proof. reflexivity. Qed.

(* ---------------------------------------------------------------- C45 *)
Theorem C45_method_round_trip : forall m, m <> MUnknown -> method_parse (method_string m) = m.
Proof. exact method_round. Qed.
Print Assumptions C45_method_round_trip.
(* every string that is not the name of a method is rejected *)
Theorem C45_method_only : forall s m, method_parse s = m -> m <> MUnknown -> s = method_string m.
Proof. exact method_parse_only. Qed.
Print Assumptions C45_method_only.
Theorem C45_protocol_versions : forall a b, proto_from_bytes (B "HTTP/" ++ [a; x2e; b]) =
  if Byte.eqb a x31 && Byte.eqb b x30 then HTTP10
  else if Byte.eqb a x31 && Byte.eqb b x31 then HTTP11
  else if Byte.eqb a x32 && Byte.eqb b x30 then HTTP2 else PUnknown.
Proof. exact proto_of_version. Qed.
Print Assumptions C45_protocol_versions.
(* the HTTP/1.x tokens print as they were read, when the byte between the digits is a dot *)
Theorem C45_protocol_round_trip_partial : forall raw, nth_error raw 6 = Some x2e ->
  proto_from_bytes raw = HTTP10 \/ proto_from_bytes raw = HTTP11 ->
  raw ++ [SP] = proto_string (proto_from_bytes raw).
Proof. exact proto_exact. Qed.
Print Assumptions C45_protocol_round_trip_partial.
(* C45: exactly the tokens that are accepted *)
Theorem C45_protocol_exact : forall raw p, p <> PUnknown ->
  (proto_from_bytes raw = p <-> exists x, raw = match p with HTTP10 => B "HTTP/1" ++ [x; x30] | HTTP11 => B "HTTP/1" ++ [x; x31] | _ => B "HTTP/2" ++ [x; x30] end).
Proof. exact proto_token. Qed.
Print Assumptions C45_protocol_exact.
(* Missing, and false: any byte is accepted in place of the dot, and HTTP/2.0 prints otherwise. *)
Theorem C45_protocol_refuted : exists raw, raw <> B "HTTP/1.1" /\ proto_from_bytes raw = HTTP11.
Proof. exists (B "HTTP/1x1"). split; [discriminate|reflexivity]. Qed.
Print Assumptions C45_protocol_refuted.
(* every preformatted status line except that of 101 is "code SP reason CRLF" *)
Theorem C45_status_lines_partial : forall c, c <> 101%N ->
  status_line c = [] \/ status_line c = itoa_N c ++ SP :: status_text c ++ CRLF.
Proof. exact status_line_ok. Qed.
Print Assumptions C45_status_lines_partial.
Theorem C45_status_three_digits : forall c, status_line c <> [] -> (100 <= c <= 999)%N.
Proof. exact three_digits. Qed.
Print Assumptions C45_status_three_digits.
(* C45: exactly which preformatted lines say what the tables say *)
Theorem C45_status_exact : forall c, status_line c <> [] -> (status_line c = itoa_N c ++ SP :: status_text c ++ CRLF <-> c <> 101%N).
Proof. exact status_line_exact. Qed.
Print Assumptions C45_status_exact.
Theorem C45_status_refuted : exists c, status_line c <> [] /\ status_line c <> itoa_N c ++ SP :: status_text c ++ CRLF.
Proof. exists 101%N. split; vm_compute; discriminate. Qed.
Print Assumptions C45_status_refuted.
Example C45_case : method_parse (B "OPTIONS") = OPTIONS /\ method_parse (B "get") = MUnknown /\
  status_line 404%N = B "404 Not Found" ++ CRLF.
Proof. repeat split. Qed.

(* ---------------------------------------------------------------- C46 *)
(* every setting but CookiesPreAllocate: the default iff it was zero *)
Theorem C46_fill_partial : forall s src, s <> SCookiesPreAllocate ->
  get_setting s (fill src) = (if Z.eq_dec (get_setting s src) 0 then get_setting s default_config else get_setting s src).
Proof. exact fill_setting. Qed.
Print Assumptions C46_fill_partial.
Theorem C46_fill_default_headers : forall src, default_headers (fill src) =
  match default_headers src with None => default_headers default_config | Some m => Some m end.
Proof. exact fill_headers. Qed.
Print Assumptions C46_fill_default_headers.
Theorem C46_idempotent : forall src, fill (fill src) = fill src.
Proof. exact fill_idem. Qed.
Print Assumptions C46_idempotent.
(* Missing, and false: CookiesPreAllocate is dropped, so filling the defaults changes them. *)
Theorem C46_refuted : exists src, get_setting SCookiesPreAllocate src = 64%Z /\
  get_setting SCookiesPreAllocate (fill src) = 0%Z /\ fill default_config <> default_config.
Proof.
  exists (Config 0 0 0 0 0 0 0 0 0 0 0 0 None 64 0 0 0 0 0 0 0). split; [reflexivity|]. split; [reflexivity|].
  vm_compute. discriminate.
Qed.
Print Assumptions C46_refuted.
Example C46_case : get_setting SHeadersMaximal (fill (Config 0 0 0 0 7 0 0 0 0 0 0 0 None 0 0 0 0 0 0 0 0)) = 7%Z /\
  get_setting SBodyMaxSize (fill (Config 0 0 0 0 7 0 0 0 0 0 0 0 None 0 0 0 0 0 0 0 0)) = 536870912%Z.
Proof. split; reflexivity. Qed.

(* ---------------------------------------------------------------- C54 *)
Theorem C54_host_kept : forall h rest, h <> [] -> ~ In x3a h ->
  normalize_addr (h ++ x3a :: rest) = h ++ x3a :: rest /\ normalize_addr h = h.
Proof. exact normalize_host. Qed.
Print Assumptions C54_host_kept.
Theorem C54_no_host : forall rest, normalize_addr (x3a :: rest) = B "0.0.0.0:" ++ rest /\
  normalize_addr [] = B "0.0.0.0".
Proof. exact normalize_nohost. Qed.
Print Assumptions C54_no_host.
Theorem C54_idempotent : forall a, normalize_addr (normalize_addr a) = normalize_addr a.
Proof. exact normalize_idem. Qed.
Print Assumptions C54_idempotent.
Example C54_case : normalize_addr (B ":8080") = B "0.0.0.0:8080" /\ normalize_addr (B "localhost:80") = B "localhost:80".
Proof. split; reflexivity. Qed.
