(* Properties C69 and C70: arbitrary bytes in arbitrary pieces. *)
From Verif Require Import M_Base M_Status M_Method M_Proto M_KeyValue M_Query M_Request M_Parser
  S_Head S_Parser S_Split L_Split L_Refuse.

(* C69, guarded: for every stream, well-formed or not, and any two ways it may arrive: the parser
   asks for more in both cases, or accepts the same request and leaves the same bytes, or refuses
   it with the same error, or panics in both cases.  Missing: header lines without a colon or
   with CR or LF within the name (refuted below), and request lines longer than the buffer
   (refuted below). *)
Theorem C69_arrival_partial : forall cfg umax kmax vmax p reads reads',
  Ready umax kmax vmax p -> concat reads = concat reads' -> NamedHead (concat reads) ->
  (len (start_part (concat reads)) <= umax)%Z ->
  SameOutcome (feed cfg p reads) (feed cfg p reads').
Proof. exact arrival. Qed.
Print Assumptions C69_arrival_partial.

(* C69 does not hold of header lines with a LF in the name: in one read the name is "ab LF cd",
   in two reads the head ends at the LF and the rest becomes the next request *)
Theorem C69_refuted : exists cfg p reads reads' q q' e e' rs',
  Ready 100 60 60 p /\ concat reads = concat reads' /\
  feed cfg p reads = (RDone q e, []) /\ e = [] /\ kv_pairs (r_headers (p_req q)) = [(B "ab" ++ LF :: B "cd", B "x")] /\
  feed cfg p reads' = (RDone q' e', rs') /\ e' = B "cd: x" ++ CR :: LF :: CR :: LF :: [] /\ kv_pairs (r_headers (p_req q')) = [].
Proof.
  exists (HCfg 10 100 5), (new_parser 100 60 60 new_request),
    [B "GET / HTTP/1.1" ++ CR :: LF :: B "ab" ++ LF :: B "cd: x" ++ CR :: LF :: CR :: LF :: []],
    [B "GET / HTTP/1.1" ++ CR :: LF :: B "ab"; LF :: B "cd: x" ++ CR :: LF :: CR :: LF :: []].
  do 5 eexists. split; [repeat split|]. split; [reflexivity|]. split; [vm_compute; reflexivity|]. split; [reflexivity|]. split; [vm_compute; reflexivity|].
  split; [vm_compute; reflexivity|]. split; reflexivity.
Qed.
Print Assumptions C69_refuted.

(* C69 does not hold of request lines at the limit either: the method counts only when it does not
   arrive in one piece *)
Theorem C69_limit_refuted : exists cfg p reads reads' q q' rs',
  Ready 12 60 60 p /\ concat reads = concat reads' /\ NamedHead (concat reads) /\
  feed cfg p reads = (RDone q [], []) /\ feed cfg p reads' = (RErr q' ErrURITooLong, rs').
Proof.
  exists (HCfg 10 100 5), (new_parser 12 60 60 new_request), [B "GET / HTTP/1.1" ++ LF :: LF :: []], [B "GE"; B "T / HTTP/1.1" ++ LF :: LF :: []].
  do 3 eexists. split; [repeat split|]. split; [reflexivity|]. split.
  { intros m r H. vm_compute in H. injection H as <- <-. apply (Ml_line (B "/ HTTP/1.1")); [vm_compute; intuition discriminate|]. apply Nl_lf. }
  split; vm_compute; reflexivity.
Qed.
Print Assumptions C69_limit_refuted.

(* the guard on names admits malformed streams *)
Example C69_case : NamedHead (B "FOO x y" ++ LF :: B "a b: " ++ LF :: B "c") /\
  NamedHead (B "GET / HTTP/1.1" ++ LF :: B "Content-Length: 1x" ++ CR :: LF :: B "b:c" ++ LF :: CR :: B "rubbish: " ++ LF :: LF :: LF :: []) /\
  NamedHead (B "no space at all") /\
  (exists q, fst (feed (HCfg 10 100 5) (new_parser 100 60 60 new_request)
     [B "GET / HT"; B "TP/1.1" ++ LF :: B "Content-Len"; B "gth: 1"; B "x" ++ CR :: LF :: B "b:c" ++ LF :: []]) = RErr q ErrBadRequest) /\
  (exists q, fst (feed (HCfg 10 100 5) (new_parser 100 60 60 new_request)
     [B "GET / HTTP/1.1" ++ LF :: B "Content-Length: 1x" ++ CR :: LF :: B "b:c" ++ LF :: []]) = RErr q ErrBadRequest).
Proof.
  split; [|split; [|split; [|split]]].
  - intros m r H. vm_compute in H. injection H as <- <-. apply (Ml_line (B "x y")); [vm_compute; intuition discriminate|]. apply Nl_name.
    apply (Mn_colon (B "a b")); [repeat split; vm_compute; intuition discriminate|]. apply (Ml_line (B " ")); [vm_compute; intuition discriminate|]. apply Nl_name. apply Mn_end. repeat split; vm_compute; intuition discriminate.
  - intros m r H. vm_compute in H. injection H as <- <-. apply (Ml_line (B "/ HTTP/1.1")); [vm_compute; intuition discriminate|]. apply Nl_name.
    apply (Mn_colon (B "Content-Length")); [repeat split; vm_compute; intuition discriminate|]. apply (Ml_line (B " 1x" ++ [CR])); [vm_compute; intuition discriminate|].
    apply Nl_name. apply (Mn_colon (B "b")); [repeat split; vm_compute; intuition discriminate|]. apply (Ml_line (B "c")); [vm_compute; intuition discriminate|]. apply Nl_cr.
  - intros m r H. vm_compute in H. injection H as <- <-. apply Ml_end. vm_compute. intuition discriminate.
  - eexists. vm_compute. reflexivity.
  - eexists. vm_compute. reflexivity.
Qed.

(* ------------------------------------------------------------------------------------ *)
(* C70, guarded: however a malformed request line arrives, and whatever follows it, it gets exactly
   the error of its first defect.  Missing: lines longer than the buffer; an empty version
   (refuted below); escapes with other characters than hexadecimal digits (C14_refuted). *)
Theorem C70_line_partial : forall cfg umax kmax vmax p m l rest e reads,
  Ready umax kmax vmax p -> concat reads = m ++ SP :: l ++ LF :: rest -> ~ In SP m -> ~ In LF l ->
  (len (m ++ l) <= umax)%Z -> LineRefused m l e ->
  exists q, fst (feed cfg p reads) = RErr q e.
Proof. exact refused_line. Qed.
Print Assumptions C70_line_partial.

(* C70 does not hold of a line that ends with a space: there is no answer, the parser panics *)
Theorem C70_refuted : exists m l, In m method_names /\ ~ In LF l /\
  forall cfg kmax vmax r rest, fst (feed cfg (new_parser 100 kmax vmax r) [m ++ SP :: l ++ LF :: rest]) = RPanic.
Proof.
  exists (B "GET"), (B "/ "). split; [left; reflexivity|]. split; [vm_compute; intuition discriminate|]. intros. reflexivity.
Qed.
Print Assumptions C70_refuted.

Example C70_case :
  LineRefused (B "FOO") (B "/ HTTP/1.1") ErrMethodNotImplemented /\
  LineRefused (B "GET") (B "/") ErrBadRequest /\
  LineRefused (B "GET") (B "/a%4?x HTTP/1.1" ++ [CR]) ErrURIDecoding /\
  LineRefused (B "GET") (B "/a b HTTP/1.2" ++ [CR]) ErrUnsupportedProtocol /\
  exists q, fst (feed (HCfg 10 100 5) (new_parser 100 60 60 new_request) [B "GE"; B "T /a%"; B "4?x HTTP/1.1" ++ CR :: LF :: B "junk"]) = RErr q ErrURIDecoding.
Proof.
  split; [|split; [|split; [|split]]].
  - apply Lr_method; [discriminate|vm_compute; intuition discriminate].
  - apply Lr_no_version; [left; reflexivity|vm_compute; intuition discriminate].
  - apply (Lr_escape (B "GET") (B "/a%4?x") (B "HTTP/1.1" ++ [CR]) (B "/a") (B "/a") (B "4")); [left; reflexivity|discriminate|vm_compute; intuition discriminate|reflexivity| |vm_compute; lia].
    apply LD_char; [discriminate|]. apply LD_char; [discriminate|]. apply LD_nil.
  - apply (Lr_version (B "GET") (B "/a b") (B "HTTP/1.2" ++ [CR]) (B "/a b")); [left; reflexivity|discriminate|vm_compute; intuition discriminate|discriminate| |].
    + repeat (apply LD_char; [discriminate|]). apply LD_nil.
    + intros (c & [H|[H|H]]); vm_compute in H; discriminate H.
  - eexists. vm_compute. reflexivity.
Qed.
