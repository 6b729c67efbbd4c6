(* Properties C18, C49, C52: cookies received, header parameters, content codings. *)
From Verif Require Import M_Base M_KeyValue S_KeyValue M_CookieJar M_HeaderValue M_Coding S_Values S_Head L_Values.

(* ---------------------------------------------------------------- C18 *)
Theorem C18_round_trip : forall l, Forall good_cookie l -> cookie_parse (cookie_text l) = (l, false).
Proof. exact cookie_roundtrip. Qed.
Print Assumptions C18_round_trip.
(* the request as a whole: the cookies of all Cookie headers, in order *)
Theorem C18_request : forall s ls, Forall (Forall good_cookie) ls ->
  all_values (kv_pairs s) (B "cookie") = map cookie_text ls -> request_cookies s = Some (concat ls).
Proof. exact request_cookies_spec. Qed.
Print Assumptions C18_request.
Theorem C18_bad_text : forall d, d <> [] -> ~ In x3d d -> cookie_parse d = ([], true).
Proof. exact cookie_no_eq. Qed.
Print Assumptions C18_bad_text.
(* A piece without '=' before a good cookie is not reported: it becomes part of the name. *)
Theorem C18_refuted_piece : exists l, cookie_parse (B "flag; session=1") = (l, false) /\ l = [(B "flag; session", B "1")].
Proof. eexists. split; reflexivity. Qed.
Print Assumptions C18_refuted_piece.
Example C18_case : Forall good_cookie [(B "a", B "b=c"); (B "x", []); (B "n m", B " 1")] /\
  cookie_text [(B "a", B "b=c"); (B "x", []); (B "n m", B " 1")] = B "a=b=c; x=; n m= 1".
Proof.
  split; [|reflexivity]. repeat (apply Forall_cons || apply Forall_nil); repeat split; try discriminate;
    intro H; vm_compute in H; intuition discriminate.
Qed.

(* ---------------------------------------------------------------- C49 *)
Theorem C49_value : forall v ps, ~ In x3b v -> value_of (header_text v ps) = v.
Proof. exact value_of_spec. Qed.
Print Assumptions C49_value.
Theorem C49_param : forall v ps key or, ~ In x3b v -> ~ In x3d key -> Forall good_param ps ->
  param_of_or (header_text v ps) key or = param_value ps key or.
Proof. exact param_of_or_spec. Qed.
Print Assumptions C49_param.
Theorem C49_charset : forall v ps, ~ In x3b v -> Forall good_param ps ->
  charset_of (header_text v ps) = param_value ps (B "charset") default_encoding.
Proof. exact charset_of_spec. Qed.
Print Assumptions C49_charset.
(* quality 0.d as the first parameter gives d; no quality parameter gives 9 *)
Theorem C49_quality_partial : forall v d ps, ~ In x3b v -> is_digit d = true ->
  quality_of (v ++ B ";q=0." ++ d :: params_text ps) = (bZ d - 48)%Z.
Proof. exact quality_digit. Qed.
Print Assumptions C49_quality_partial.
(* the text behind "0." counts as a whole number, with a sign, not as a fraction *)
Theorem C49_quality_digits : forall v sign ds ps, ~ In x3b v -> ds <> [] -> Forall (fun c => is_digit c = true) ds -> (dec_value ds < two63)%Z ->
  sign = [] \/ sign = B "+" \/ sign = B "-" ->
  quality_of (v ++ B ";q=0." ++ (sign ++ ds) ++ params_text ps) = if beqb sign (B "-") then (- dec_value ds)%Z else dec_value ds.
Proof. exact quality_digits. Qed.
Print Assumptions C49_quality_digits.
Theorem C49_quality_absent : forall v ps, ~ In x3b v -> Forall good_param ps ->
  (forall e, In e ps -> fst e <> B "q") -> quality_of (header_text v ps) = 9%Z.
Proof. exact quality_absent. Qed.
Print Assumptions C49_quality_absent.
(* Missing, and false: other spellings of quality.  0.75 ranks above 0.9, 1 and 0 rank like 0.9;
   with a space after the semicolon no parameter is found at all. *)
Theorem C49_refuted : exists a b c d, a = header_text (B "gzip") [(B "q", B "0.75")] /\
  b = header_text (B "gzip") [(B "q", B "0.9")] /\ c = header_text (B "gzip") [(B "q", B "0")] /\
  d = header_text (B "gzip") [(B "q", B "1")] /\
  (quality_of a > quality_of d)%Z /\ quality_of b = quality_of c /\ quality_of c = quality_of d.
Proof. eexists _, _, _, _. repeat split. Qed.
Print Assumptions C49_refuted.
Theorem C49_refuted_space : exists s, s = B "text/html; charset=utf-8" /\ charset_of s = B "iso-8859-1".
Proof. eexists. split; reflexivity. Qed.
Print Assumptions C49_refuted_space.
Example C49_case : Forall good_param [(B "level", B "1"); (B "charset", B "utf-8")] /\
  param_of_or (B "text/html;level=1;charset=utf-8") (B "charset") [] = B "utf-8" /\
  value_of (B "text/html;level=1;charset=utf-8") = B "text/html".
Proof.
  split; [|split; reflexivity]. repeat (apply Forall_cons || apply Forall_nil); repeat split;
    intro H; vm_compute in H; intuition discriminate.
Qed.

(* ---------------------------------------------------------------- C52 *)
Theorem C52_identity : forall m t input, t = B "identity" \/ input = [] ->
  m_encode m t input = COk input /\ m_decode m t input = COk input.
Proof. exact coding_identity. Qed.
Print Assumptions C52_identity.
(* the coder registered last for the token is the one applied *)
Theorem C52_registered : forall cs1 c cs2 t input, serves c t -> (forall c', In c' cs2 -> ~ serves c' t) ->
  t <> B "identity" -> input <> [] ->
  let m := fold_left add_coding (cs1 ++ c :: cs2) new_manager in
  m_encode m t input = of_coder (cd_encode c input) /\ m_decode m t input = of_coder (cd_decode c input).
Proof. exact coding_registered. Qed.
Print Assumptions C52_registered.
Theorem C52_unknown : forall cs t input, (forall c, In c cs -> ~ serves c t) -> t <> B "identity" -> input <> [] ->
  let m := fold_left add_coding cs new_manager in
  m_encode m t input = CUnknown /\ m_decode m t input = CUnknown.
Proof. exact coding_unregistered. Qed.
Print Assumptions C52_unknown.
Definition ex_gzip : coder := Coder (B "gzip") (fun d => Some (B "z" ++ d)) (fun d => match d with x7a :: r => Some r | _ => None end).
Example C52_case : serves ex_gzip (B "x-gzip") /\
  m_encode (fold_left add_coding [ex_gzip] new_manager) (B "x-gzip") (B "a") = COk (B "za") /\
  m_decode (fold_left add_coding [ex_gzip] new_manager) (B "gzip") (B "a") = CCoderError /\
  m_decode (fold_left add_coding [ex_gzip] new_manager) (B "br") (B "a") = CUnknown.
Proof. split; [right; left; split; reflexivity|]. vm_compute. repeat split. Qed.
