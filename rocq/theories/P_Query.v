(* Properties C15, C16: query parameters. *)
From Verif Require Import M_Base M_Status M_KeyValue M_Query S_Head S_KeyValue S_Query L_Query L_Query2.

(* C15: whatever object was used before (in particular one whose previous query was read),
   after Set with a form-encoded query the parameters are exactly the pairs sent, in order,
   for every sequence of accesses -- provided no name or value has an encoded '&' or '+', no
   name has an encoded '=', and no name is empty. *)
Theorem C15_round_trip_partial : forall q l e accesses,
  (q_parsed q = false -> kv_pairs (q_params q) = []) ->
  FormQuery l e -> Forall plain_entry l ->
  Forall2 (q_right l) accesses (snd (q_calls (query_set q e) accesses)).
Proof.
  exact (fun q l e accesses H HF HP =>
    let F := query_set_fresh q e H in
    q_calls_good (query_set q e) l accesses (proj1 F)
      (eq_trans (f_equal query_parse (proj2 F)) (query_parse_form l e HF HP))).
Qed.
Print Assumptions C15_round_trip_partial.
(* C15: the hypothesis on the object holds for a new one and is kept by every access and Set *)
Theorem C15_object_invariant : forall q accesses raw, (q_parsed q = false -> kv_pairs (q_params q) = []) ->
  (let q' := fst (q_calls q accesses) in q_parsed q' = false -> kv_pairs (q_params q') = []) /\
  (fresh_query (query_set q raw) /\ q_raw (query_set q raw) = raw).
Proof. exact (fun q accesses raw H => conj (q_calls_inv accesses q H) (query_set_fresh q raw H)). Qed.
Print Assumptions C15_object_invariant.

(* Missing for the full C15: names and values with an encoded '&', '=' or '+', which are
   decoded before the text is split.  a=b%26c=d, the single pair (a, b&c=d), is read as two: *)
Theorem C15_refuted_ampersand : exists v e,
  FormQuery [(B "a", v)] e /\ query_parse e = ([(B "a", B "b"); (B "c", B "d")], None).
Proof.
  exists (B "b&c=d"), (B "a" ++ x3d :: B "b%26c%3Dd"). split; [|reflexivity]. constructor.
  - repeat (constructor; try discriminate).
  - apply FT_char; try discriminate. apply (FT_esc x26 x32 x36 2 6); try reflexivity.
    apply FT_char; try discriminate. apply (FT_esc x3d x33 x44 3 13); try reflexivity.
    apply FT_char; try discriminate. constructor.
Qed.
Print Assumptions C15_refuted_ampersand.
(* and the value "1+1" is read as "1 1" *)
Theorem C15_refuted_plus : exists e, FormQuery [(B "a", B "1+1")] e /\ query_parse e = ([(B "a", B "1 1")], None).
Proof.
  exists (B "a" ++ x3d :: B "1%2B1"). split; [|reflexivity]. constructor.
  - repeat (constructor; try discriminate).
  - apply FT_char; try discriminate. apply (FT_esc x2b x32 x42 2 11); try reflexivity.
    apply FT_char; try discriminate. constructor.
Qed.
Print Assumptions C15_refuted_plus.
Example C15_case : exists e, FormQuery [(B "name", B "J=d oe"); (B "x", [])] e /\
  Forall plain_entry [(B "name", B "J=d oe"); (B "x", [])].
Proof.
  exists (B "name" ++ x3d :: B "J%3dd+oe" ++ x26 :: B "x" ++ x3d :: []). split.
  - apply FQ_more; [repeat (constructor; try discriminate)| |].
    + apply FT_char; try discriminate. apply (FT_esc x3d x33 x64 3 13); try reflexivity.
      apply FT_char; try discriminate. apply FT_plus. repeat (constructor; try discriminate).
    + apply FQ_one; repeat (constructor; try discriminate).
  - repeat (apply Forall_cons || apply Forall_nil); repeat split; try discriminate;
      intro H; vm_compute in H; intuition discriminate.
Qed.

(* C15: and for any query at all, encoded by the rules or not: if its escapes are well-formed,
   what a handler reads are the pieces of the decoded text, cut at '&', each cut at its first
   '=' (a piece without one is a flag with the value 1), with '+' for a space. *)
Theorem C15_meaning : forall q raw d l accesses,
  (q_parsed q = false -> kv_pairs (q_params q) = []) -> PctDecodes raw d -> QueryText d l ->
  Forall2 (q_right l) accesses (snd (q_calls (query_set q raw) accesses)).
Proof. exact q_text_calls. Qed.
Print Assumptions C15_meaning.
Example C15_meaning_case : PctDecodes (B "a=1=2&&b+c&") (B "a=1=2&&b+c&") /\
  QueryText (B "a=1=2&&b+c&") [(B "a", B "1=2"); (B "", B "1"); (B "b c", B "1")].
Proof.
  split; [repeat (constructor; [discriminate|]); constructor|].
  apply (QT_more (B "a=1=2") (B "a", B "1=2")); [intro H; vm_compute in H; intuition discriminate| |].
  { apply (Piece_pair (B "a") (B "1=2")); [discriminate|intro H; vm_compute in H; intuition discriminate]. }
  apply (QT_more (B "") (B "", B "1")); [intros []|apply (Piece_flag (B "")); intros []|].
  apply (QT_more (B "b+c") (B "b c", B "1") (B "") []); [intro H; vm_compute in H; intuition discriminate| |constructor].
  apply (Piece_flag (B "b+c")). intro H; vm_compute in H; intuition discriminate.
Qed.

(* C16: a query whose escapes are well-formed is good -- then every access in every history
   gives the right answer, C15_meaning -- or malformed, *)
Theorem C16_good_or_bad : forall raw d, PctDecodes raw d -> (exists l, QueryText d l) \/ BadQuery raw ErrBadQuery.
Proof. exact decoded_query_total. Qed.
Print Assumptions C16_good_or_bad.
(* and with a malformed one the first access reports its error. *)
Theorem C16_first_access_partial : forall q raw e a,
  (q_parsed q = false -> kv_pairs (q_params q) = []) -> BadQuery raw e ->
  reports e (snd (q_call (query_set q raw) a)).
Proof. exact q_bad_first. Qed.
Print Assumptions C16_first_access_partial.
Example C16_bad_case : BadQuery (B "a=1&=2") ErrBadQuery /\ BadQuery (B "a=%4") ErrURIDecoding.
Proof.
  split.
  - apply (BQ_nameless _ (B "a=1&=2")); [repeat (constructor; [discriminate|]); constructor|].
    apply (NT_more (B "a=1") (B "a", B "1")); [intro H; vm_compute in H; intuition discriminate| |constructor].
    apply (Piece_pair (B "a") (B "1")); [discriminate|intro H; vm_compute in H; intuition discriminate].
  - apply (BQ_escape (B "a=") (B "a=") (B "4")); [repeat (constructor; [discriminate|]); constructor|cbn; lia|].
    intro H; vm_compute in H; intuition discriminate.
Qed.
(* Missing for the full C16, and false: the second access reports no error. *)
Theorem C16_refuted : exists q a b, fresh_query q /\ BadQuery (q_raw q) ErrBadQuery /\
  snd (q_calls q [a; b]) = [QA (QErr ErrBadQuery); QA QNoKey].
Proof. exists (query_set (query_new kv_new) (B "=1")), (AGet (B "x")), (AGet (B "x")). split; [vm_compute; repeat split|].
  split; [|vm_compute; reflexivity]. apply (BQ_nameless _ (B "=1")); [repeat (constructor; [discriminate|]); constructor|constructor].
Qed.
Print Assumptions C16_refuted.
(* Neither does Raw keep returning the raw query: parsing decodes it in place. *)
Theorem C16_refuted_raw : exists q, fresh_query q /\ query_raw q = B "a=b%20c" /\
  query_raw (fst (q_calls q [AAll])) <> B "a=b%20c".
Proof. exists (query_set (query_new kv_new) (B "a=b%20c")). vm_compute. repeat split. discriminate. Qed.
Print Assumptions C16_refuted_raw.
(* It keeps its size, whatever is accessed: parsing stays within the memory of the query. *)
Theorem C16_raw_size : forall l q, List.length (query_raw (fst (q_calls q l))) = List.length (query_raw q).
Proof. exact raw_size. Qed.
Print Assumptions C16_raw_size.
Example C16_case : fresh_query (query_set (query_new kv_new) (B "a=1&b")) /\
  snd (q_calls (query_set (query_new kv_new) (B "a=1&b")) [AGet (B "A"); AAll; AGet (B "b"); AGet (B "c")])
  = [QA (QValue (B "1")); QAll [(B "a", B "1"); (B "b", B "1")] None; QA (QValue (B "1")); QA QNoKey].
Proof. vm_compute. repeat split. Qed.
