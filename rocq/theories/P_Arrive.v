(* Properties C82, C02, C04, C05, C69 for any bytes at all in any reads. *)
From Verif Require Import M_Base M_Status M_Method M_Proto M_KeyValue M_Query M_Request M_Parser
  S_Head S_Parser S_Split S_Verdict S_Arrive L_Loose L_Verdict L_Arrive6 L_Arrive7 P_Parser P_Verdict.

(* C82: whatever bytes arrive in whatever reads, the parser follows the verdict: names with line
   breaks, request lines beyond the buffer and reads that begin anywhere included. *)
Theorem C82_exact : forall cfg umax kmax vmax, (0 <= umax)%Z -> forall reads v, HeadHeard (cfg_limits cfg umax kmax vmax) reads v ->
  forall p, Ready umax kmax vmax p -> Follows (cfg_limits cfg umax kmax vmax) (p_req p) (feed cfg p reads) v.
Proof. exact head_follow. Qed.
Print Assumptions C82_exact.
(* there is always one *)
Theorem C82_exact_total : forall lim reads, exists v, HeadHeard lim reads v.
Proof. exact head_all. Qed.
Print Assumptions C82_exact_total.
(* and only one *)
Theorem C82_exact_unique : forall lim reads v v', (0 <= lim_line lim)%Z -> HeadHeard lim reads v -> HeadHeard lim reads v' -> Agree v v'.
Proof. exact head_agree. Qed.
Print Assumptions C82_exact_unique.

(* C02: the bytes that crash the connection, in whatever reads *)
Theorem C02_exact : forall cfg umax kmax vmax p reads, (0 <= umax)%Z -> Ready umax kmax vmax p ->
  (fst (feed cfg p reads) = RPanic <-> HeadHeard (cfg_limits cfg umax kmax vmax) reads VPanics).
Proof. exact panics_always. Qed.
Print Assumptions C02_exact.

(* C04: the length of any request that is taken: the digits of all lines whose names count as
   Content-Length, one after the other, as an int of 64 bits; or, without such a line, as before *)
Theorem C04_exact : forall cfg umax kmax vmax p reads q extra, (0 <= umax)%Z -> Ready umax kmax vmax p -> fst (feed cfg p reads) = RDone q extra ->
  exists h rest, HeadHeard (cfg_limits cfg umax kmax vmax) reads (VTaken h rest) /\
    let counted := map hl_value (filter (fun l => counts_length (hl_key l)) (h_lines h)) in
    match counted with
    | [] => r_content_length (p_req q) = r_content_length (p_req p)
    | _ => as_int64 (dec_value (filter is_digit (concat counted))) (r_content_length (p_req q))
    end.
Proof. exact length_always. Qed.
Print Assumptions C04_exact.

(* C05: the headers of any request that is taken are exactly its lines, names as sent; so a name has
   a line break in it if and only if a name of the head has *)
Theorem C05_exact : forall cfg umax kmax vmax p reads q extra, (0 <= umax)%Z -> Ready umax kmax vmax p -> kv_pairs (r_headers (p_req p)) = [] ->
  fst (feed cfg p reads) = RDone q extra ->
  exists h rest, HeadHeard (cfg_limits cfg umax kmax vmax) reads (VTaken h rest) /\
    kv_pairs (r_headers (p_req q)) = fields_sent (h_lines h) /\
    ((exists k v c, In (k, v) (kv_pairs (r_headers (p_req q))) /\ In c k /\ a_break c) <->
     (exists l c, In l (h_lines h) /\ counts_length (hl_key l) = false /\ In c (hl_key l) /\ a_break c)).
Proof. exact names_always. Qed.
Print Assumptions C05_exact.

(* C69: the same bytes in two ways of reading have the same outcome whenever the request line fits
   with its method and no read begins with a break within a name.
   Missing: the others, C69_refuted and C69_limit_refuted; what comes of them is C82_exact *)
Theorem C69_heard_partial : forall lim reads reads' v v', (0 <= lim_line lim)%Z -> concat reads = concat reads' ->
  HeadHeard lim reads v -> HeadHeard lim reads' v' ->
  (forall m t, concat reads = m ++ SP :: t -> ~ In SP m -> (len m + len (line_part t) <= lim_line lim)%Z) ->
  (forall m l t, concat reads = m ++ SP :: l ++ LF :: t -> ~ In SP m -> ~ In LF l ->
     let k := (List.length m + List.length l + 2)%nat in
     LinesHeard lim [] (without k reads) t /\ LinesHeard lim [] (without k reads') t) ->
  Agree v v'.
Proof. exact same_arrival. Qed.
Print Assumptions C69_heard_partial.

(* ---- cases ---- *)
Definition arr_lim : limits := cfg_limits ex_cfg 100 100 100.
Definition arr_line : bytes := B "GET / HTTP/1.1" ++ [CR; LF].
(* a name with a line feed in it: a field of that name, or the end of the head *)
Example C82_exact_case : 
  let p := new_parser 100 100 100 new_request in
  let r1 := [arr_line ++ B "A" ++ LF :: B "B: c" ++ [CR; LF; CR; LF]] in
  let r2 := [arr_line ++ B "A"; LF :: B "B: c" ++ [CR; LF; CR; LF]] in
  concat r1 = concat r2 /\
  (exists q, feed ex_cfg p r1 = (RDone q [], []) /\ kv_pairs (r_headers (p_req q)) = [(B "A" ++ LF :: B "B", B "c")]) /\
  (exists q, feed ex_cfg p r2 = (RDone q (B "B: c" ++ [CR; LF; CR; LF]), []) /\ kv_pairs (r_headers (p_req q)) = []) /\
  LinesHeard arr_lim [] (without 16 r1) (B "A" ++ LF :: B "B: c" ++ [CR; LF; CR; LF]) /\
  LinesHeard arr_lim [] (without 16 r2) (LF :: B "B: c" ++ [CR; LF; CR; LF]).
Proof.
  cbv zeta. split; [reflexivity|]. split; [eexists; split; vm_compute; reflexivity|]. split; [eexists; split; vm_compute; reflexivity|]. split.
  - cbn [without]. change (Nat.leb 16 _) with true. cbv iota. apply Lh_more; [intros b n (E & Nb & _); destruct Nb as [n0 N0 A0|k v0 b0 n0]; [cbn [app] in E; congruence|destruct k; discriminate E]|]. apply Lh_end.
  - change (without 16 _) with [B "A"; LF :: B "B: c" ++ [CR; LF; CR; LF]]. apply Lh_more; [intros b n (E & Nb & _); destruct Nb as [n0 N0 A0|k v0 b0 n0]; [cbn [app] in E; congruence|destruct k; discriminate E]|].
    apply (Lh_forget arr_lim (B "A") [] (B "A") (LF :: B "B: c" ++ [CR; LF; CR; LF]) []). split; [reflexivity|].
    assert (N : a_name (B "A")) by (split; vm_compute; intuition discriminate). split; [constructor; [discriminate|exact N]|]. split; [apply Lt_name; [exact N|discriminate|vm_compute; discriminate]|].
    exists LF, (B "B: c" ++ [CR; LF; CR; LF]). split; [reflexivity|right; reflexivity].
Qed.
(* a line at the limit: taken, or refused because the method did not come at once *)
Example C82_exact_line : let p := new_parser 11 100 100 new_request in
  let r1 := [arr_line; [LF]] in let r2 := [B "GE"; B "T / HTTP/1.1" ++ [CR; LF; LF]] in
  concat r1 = concat r2 /\ kept r1 (B "GET") = [] /\ kept r2 (B "GET") = B "GET" /\
  (exists q, feed ex_cfg p r1 = (RDone q [], [])) /\ (exists q, feed ex_cfg p r2 = (RErr q ErrURITooLong, [])) /\
  HeadHeard (cfg_limits ex_cfg 11 100 100) r2 (VRefused None ErrURITooLong).
Proof.
  cbv zeta. split; [reflexivity|]. split; [reflexivity|]. split; [reflexivity|]. split; [eexists; vm_compute; reflexivity|]. split; [eexists; vm_compute; reflexivity|].
  apply (Hh_line_long _ _ (B "GET") (B "/ HTTP/1.1" ++ [CR; LF; LF])); [reflexivity|left; reflexivity|vm_compute; discriminate|vm_compute; reflexivity].
Qed.
(* Content<CR>Length counts as Content-Length *)
Example C04_exact_case : let reads := [arr_line; B "Content" ++ CR :: B "Length: 1"; B "2" ++ [LF; LF]] in
  counts_length (B "Content" ++ CR :: B "Length") = true /\
  exists q, feed ex_cfg (new_parser 100 100 100 new_request) reads = (RDone q [], []) /\ r_content_length (p_req q) = 12%Z /\ kv_pairs (r_headers (p_req q)) = [].
Proof. cbv zeta. split; [reflexivity|]. eexists. split; [vm_compute; reflexivity|]. split; reflexivity. Qed.
(* a crash in three reads *)
Example C02_exact_case : let reads := [arr_line; B "A" ++ LF :: B "B: "; [LF]] in
  fst (feed ex_cfg (new_parser 100 100 100 new_request) reads) = RPanic.
Proof. vm_compute. reflexivity. Qed.
