(* Property C11: exactly what Bytes answers. *)
From Verif Require Import M_Base M_Status M_Request M_Parser M_Client M_Body S_Stale L_Base L_Body L_BodyProps L_Stale P_Body.

(* C11: exactly.  Whatever the body object of a connection was used for, whatever bytes arrived: if the
   end of the present body has been reached, Bytes answers with the text of the last Bytes on this
   connection, whichever request that was called for (nothing, if it never was); otherwise its
   answer depends on nothing that was kept.  Guards: no Bytes failed on the connection before
   (C11_failed_exact says what is kept then); a length that can be allocated (C09_alloc_exact). *)
Theorem C11_exact : forall CS cparse max l cs c oss (b : body CS) c', lives cparse max l (new_body cs) c = (oss, b, c') -> NoneFailed (concat oss) ->
  (bd_eof b = true -> body_op cparse max OBytes b c' = (RBytes (BROk (last_whole [] (concat oss))), b, c')) /\
  (bd_eof b = false -> forall old cap, (bd_chunked b = true \/ bd_clen b <= max_alloc)%Z ->
     fst (fst (body_op cparse max OBytes (set_full old cap b) c')) = fst (fst (body_op cparse max OBytes b c'))).
Proof. exact stale_exact. Qed.
Print Assumptions C11_exact.
(* C11: a Bytes that fails keeps the pieces that arrived before, those a callback would have got; a later
   Bytes may answer with them as if they were a whole body *)
Theorem C11_failed_exact : forall CS cparse max (b : body CS) c e b' c', body_op cparse max OBytes b c = (RBytes (BRErr e), b', c') ->
  exists ps b2, body_op cparse max (OCallback takes_all) b c = (RCallback ps (Some (Some e)), b2, c') /\ bd_full b' = concat ps.
Proof. exact failed_exact. Qed.
Print Assumptions C11_failed_exact.

(* three requests: the first is read with Bytes, the second and third are discarded first *)
Example C11_exact_case : exists b c',
  let secret := B "secret" in
  lives no_decoder 100 [(ex_post 6, [OBytes; ODiscard]); (ex_post 1, [ODiscard; OBytes]); (ex_post 3, [ORetrieve])]
    (new_body tt) (new_client [ok_read secret; ok_read (B "x"); ok_read (B "abc")] []) =
  ([[RBytes (BROk secret); RDiscard (Some None)]; [RDiscard (Some None); RBytes (BROk secret)]; [RPiece (B "abc") (Some BEof)]], b, c') /\
  bd_eof b = true /\ body_op no_decoder 100 OBytes b c' = (RBytes (BROk secret), b, c').
Proof. eexists _, _. split; [vm_compute; reflexivity|]. split; vm_compute; reflexivity. Qed.
Example C11_failed_case : exists b b2 c',
  body_op no_decoder 100 OBytes (body_init (new_body tt) (ex_post 6)) (new_client [ok_read (B "sec"); ([], Some NOther)] []) = (RBytes (BRErr BNet), b, c') /\
  bd_full b = B "sec" /\
  body_ops no_decoder 100 [ODiscard; OBytes] (body_init b (ex_post 0)) c' = ([RDiscard (Some None); RBytes (BROk (B "sec"))], b2, c').
Proof. eexists _, _, _. split; [vm_compute; reflexivity|]. split; vm_compute; reflexivity. Qed.
