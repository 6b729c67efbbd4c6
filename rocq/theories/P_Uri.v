(* Properties C13 and C14: percent decoding. *)
From Verif Require Import M_Base M_Status M_Uri S_Head L_Uri.

(* C13: every string with well-formed escapes decodes to what it denotes. *)
Theorem C13_decoding_correct : forall src d, PctDecodes src d -> uri_decode src = Some d.
Proof. exact uri_decode_spec. Qed.
Print Assumptions C13_decoding_correct.

(* C13: decoding in place (source and destination share memory, as both callers do) returns a
   slice of that memory holding exactly the decoded bytes, and leaves everything behind the
   source untouched. *)
Theorem C13_in_place : forall src rest d, PctDecodes src d ->
  exists mem' j, uri_decode_mem (src ++ rest) (List.length src) = (mem', Some (0%nat, j)) /\
    slice mem' 0 j = d /\ (j <= List.length src)%nat /\
    List.length mem' = List.length (src ++ rest) /\ skipn (List.length src) mem' = rest.
Proof. exact uri_decode_in_place. Qed.
Print Assumptions C13_in_place.

(* C13: whatever the source (also with malformed escapes), in-place decoding agrees with
   decoding into fresh memory, and memory behind the source is untouched. *)
Theorem C13_in_place_any : forall mem e, (e <= List.length mem)%nat ->
  exists mem' res, uri_decode_mem mem e = (mem', res) /\
    List.length mem' = List.length mem /\ skipn e mem' = skipn e mem /\
    match uri_decode (firstn e mem) with
    | Some d => exists j, res = Some (0%nat, j) /\ (j <= e)%nat /\ slice mem' 0 j = d
    | None => res = None
    end.
Proof. exact uri_decode_mem_ok. Qed.
Print Assumptions C13_in_place_any.

Theorem C13_never_longer : forall s d, uri_decode s = Some d -> (List.length d <= List.length s)%nat.
Proof. exact uri_decode_length. Qed.
Print Assumptions C13_never_longer.

Theorem C13_identity : forall s, ~ In x25 s -> uri_decode s = Some s.
Proof. exact uri_decode_id. Qed.
Print Assumptions C13_identity.

Example C13_case : PctDecodes (B "/a%20b%2Fc") (B "/a b/c").
Proof.
  vm_compute. repeat (apply PD_char; [discriminate|]).
  eapply (PD_esc _ _ 2%N 0%N); [reflexivity|reflexivity|].
  apply PD_char; [discriminate|].
  eapply (PD_esc _ _ 2%N 15%N); [reflexivity|reflexivity|].
  apply PD_char; [discriminate|]. apply PD_nil.
Qed.
Example C13_case_mem :
  exists m, uri_decode_mem (B "/a%20b?x=1") 6 = (m, Some (0%nat, 4%nat)) /\
            firstn 4 m = B "/a b" /\ skipn 6 m = B "?x=1".
Proof. eexists. vm_compute. repeat split. Qed.

(* C14: an escape with fewer than two bytes behind it is refused. *)
Theorem C14_truncated_partial : forall a d t, PctDecodes a d -> (List.length t < 2)%nat -> ~ In x25 t ->
  uri_decode (a ++ x25 :: t) = None.
Proof. exact uri_decode_truncated. Qed.
Print Assumptions C14_truncated_partial.
(* Missing for the full C14: escapes followed by two bytes that are not hexadecimal digits.
   They are accepted, the digits counting as 0: *)
Theorem C14_refuted : exists a h l b d,
  hex_value h = None /\ hex_value l = None /\ uri_decode (a ++ x25 :: h :: l :: b) = Some d.
Proof. exists (B "/"), x7a, x7a, (B "x"), (B "/" ++ x00 :: B "x"). vm_compute. repeat split. Qed.
Print Assumptions C14_refuted.

Example C14_case : uri_decode (B "/a%4") = None.
Proof. reflexivity. Qed.
