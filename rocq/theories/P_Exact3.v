(* Properties C24, C31, C40, C58 and C62: what happens in every case. *)
From Verif Require Import M_Base M_Status M_Method M_Proto M_Client M_KeyValue M_Query M_Request M_Parser M_Path M_Radix M_Response
  M_Serializer M_Suit M_Virtual S_KeyValue S_Routes S_Response S_Static S_Virtual S_Templates S_Whose L_Base L_Templates L_Exact4 P_Virtual.

(* ------------------------------------------------------------------------------------ *)
(* C31: every template.  A text behind the leading slash is cut at its slashes in one way, and
   what it is read as, or refused with, is what [Template] says of its pieces; a text without
   the slash is refused *)
Theorem C31_exact :
  tparse [] = inl TEmpty /\ (forall c s, c <> SLASH -> tparse (c :: s) = inl TNoSlash) /\
  (forall s, exists ps, ps <> [] /\ Forall slash_free ps /\ s = join_slash ps) /\
  forall ps r, ps <> [] -> Forall slash_free ps -> (tparse (SLASH :: join_slash ps) = r <-> Template ps r).
Proof.
  split; [reflexivity|]. split.
  { intros c s N. unfold tparse. destruct (Byte.eqb c SLASH) eqn:E; [apply Byte.byte_dec_bl in E; contradiction|reflexivity]. }
  split; [exact pieces_of|exact template_exact].
Qed.
Print Assumptions C31_exact.
(* a parameter whose brace stays open at the end is silently no segment at all; slashes in a
   row belong to the static segment behind them *)
Example C31_exact_case : tparse (B "/users//all/{id}/{name") = inr [SStatic (B "users"); SStatic (B "/all"); SWild (B "id")] /\
  Template [B "users"; []; B "all"; B "{id}"; B "{name"] (inr [SStatic (B "users"); SStatic (B "/all"); SWild (B "id")]).
Proof.
  split; [vm_compute; reflexivity|]. apply (proj2 (proj2 (proj2 C31_exact))); [discriminate| |vm_compute; reflexivity].
  repeat constructor; unfold slash_free; intros H; repeat (destruct H as [H|H]; [discriminate H|]); exact H.
Qed.

(* ------------------------------------------------------------------------------------ *)
(* C40: every request.  Exactly one router or code belongs to its Host headers, and it gets the
   request, resp. is answered *)
Theorem C40_exact : forall W (os : list (vop W)) w r, exists d, Whose os (hosts_of r) d /\
  (forall d', Whose os (hosts_of r) d' -> d' = d) /\
  match d with inl x => GivenTo x w r (v_request (v_build os) w r) | inr c => Refused c w (v_request (v_build os) w r) end.
Proof.
  intros W os w r. destruct (whose_total W os (hosts_of r)) as [d H]. exists d. split; [exact H|]. split.
  - intros d' H'. exact (whose_unique W os _ d' d H' H).
  - exact (whose_request W os w r d H).
Qed.
Print Assumptions C40_exact.
(* C62: and every error goes where the request would have gone *)
Theorem C62_exact : forall W (os : list (vop W)) w r e, exists d, Whose os (hosts_of r) d /\
  (forall d', Whose os (hosts_of r) d' -> d' = d) /\
  match d with inl x => ErrorGivenTo x w r e (v_error (v_build os) w r e) | inr c => Refused c w (v_error (v_build os) w r e) end.
Proof.
  intros W os w r e. destruct (whose_total W os (hosts_of r)) as [d H]. exists d. split; [exact H|]. split.
  - intros d' H'. exact (whose_unique W os _ d' d H' H).
  - exact (whose_error W os w r e d H).
Qed.
Print Assumptions C62_exact.
Example C62_exact_case : code_of (v_error (v_build [VHost (B "a.com") (ex_router 200%N)]) 0%nat (ex_to [B "b.com"]) ErrBodyTooLarge) = Some 421%N /\
  code_of (v_error (v_build [VHost (B "a.com") (ex_router 200%N)]) 0%nat (ex_to [B "a.com"; B "a.com"]) ErrBodyTooLarge) = Some 400%N /\
  code_of (v_error (v_build [VHost (B "a.com") (ex_router 200%N)]) 0%nat (ex_to [B "A.COM"]) ErrBodyTooLarge) = Some 413%N.
Proof. vm_compute. repeat split. Qed.

(* ------------------------------------------------------------------------------------ *)
(* C24: every response with an attachment: it is closed, once, exactly if it can be closed, the
   request is not HEAD, the head could be written, and the reader neither panicked nor hung *)
Theorem C24_closed_exact : forall p r f a s c res s' c' f', f_att f = Some a -> write_response p r f s c = (res, s', c', f') ->
  exists a', f_att f' = Some a' /\
   ((r_method r <> HEAD /\ write_ok c /\ res <> WPanic /\ res <> WStuck /\ at_closer a = true /\ at_closes a' = S (at_closes a)) \/
    (~ (r_method r <> HEAD /\ write_ok c /\ res <> WPanic /\ res <> WStuck /\ at_closer a = true) /\ at_closes a' = at_closes a)).
Proof. exact attachment_closes. Qed.
Print Assumptions C24_closed_exact.
(* C58: a descriptor is opened and lost exactly for a directory and a file without a size *)
Theorem C58_lost_exact : forall path r f, snd (resp_try_file path r f) = true <-> r = FDir \/ r = FNoStat.
Proof. intros path r f. destruct r; cbn; split; intros H; try discriminate; auto; destruct H; discriminate. Qed.
Print Assumptions C58_lost_exact.
