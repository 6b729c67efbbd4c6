(* Properties C55 and C56: bodies cut short, and what callbacks are called with. *)
From Verif Require Import M_Base M_Status M_Method M_Proto M_KeyValue M_Query M_Request M_Parser M_Client M_Body
  S_Head S_Parser S_Body S_Chunk S_Cut L_Body L_Body2 L_Body3 L_Chunk L_BodyProps L_Cut P_Body.

(* C55: for all ways of losing a connection other than an orderly close: as long as fewer bytes
   arrive than announced, in all reads together and even if reading goes on after failures, no
   accessor in any mix of calls reports the body as complete: each answer is a piece without end
   or an error, and consists of received bytes.  With one kind of reading, nothing is left out.
   Missing: the orderly close (C55_refuted) and data that comes with an error
   (C55_refuted_with_error). *)
Theorem C55_fixed_partial : forall CS cparse max (b : body CS) r c ops os b' c',
  enc_chunked (r_encoding r) = false -> (len (arrives c) < r_content_length r <= max)%Z -> (r_content_length r <= max_alloc)%Z ->
  NotClosed c -> body_ops cparse max ops (body_init b r) c = (os, b', c') ->
  Forall (fun o => Incomplete o /\ piece_of (arrives c) (out_data o)) os /\
  (Uniform ops -> exists left, arrives c = concat (map out_data os) ++ left).
Proof. exact fixed_cut. Qed.
Print Assumptions C55_fixed_partial.
Example C55_case : let c := new_client [ok_read (B "ab"); ([], Some NOther); ok_read (B "cde")] [] in
  NotClosed c /\ arrives c = B "abcde" /\
  fst (fst (body_ops no_decoder 100 [ORetrieve; OBytes; ORead 2; ORead 2; ORead 2; ODiscard] (body_init (new_body tt) (ex_post 6)) c)) =
    [RPiece (B "ab") None; RBytes (BRErr BNet); RPiece (B "cd") None; RPiece (B "e") None; RPiece [] (Some BNet); RDiscard (Some (Some BNet))].
Proof. split; [repeat constructor; discriminate|]. vm_compute. split; reflexivity. Qed.

(* C55: the same for chunked bodies of which a part is missing *)
Theorem C55_chunked_partial : forall CS cparse encoded fresh inside max (b : body CS) r c w text missing ops os b' c',
  DecoderOk CS cparse encoded fresh inside -> fresh (bd_cs b) -> ChunkedRequest encoded max r w text ->
  arrives c ++ missing = w -> missing <> [] -> NotClosed c ->
  body_ops cparse max ops (body_init b r) c = (os, b', c') ->
  Forall (fun o => Incomplete o /\ piece_of text (out_data o)) os /\
  (Uniform ops -> exists left, text = concat (map out_data os) ++ left).
Proof. exact chunked_cut. Qed.
Print Assumptions C55_chunked_partial.
(* Missing: the orderly close, for chunked bodies as well *)
Theorem C55_refuted_chunked : exists c (b : body kstate), c = new_client [ok_read (B "5" ++ CRLF ++ B "abc"); ([], Some NEof)] [] /\ bd_cs b = KSize 0 false /\
  fst (fst (body_op ref_parse 100 OBytes (body_init b ex_chunked_post) c)) = RBytes (BROk (B "abc")).
Proof. eexists _, (new_body (KSize 0 false)). split; [reflexivity|]. split; [reflexivity|]. vm_compute. reflexivity. Qed.
Print Assumptions C55_refuted_chunked.
Example C55_chunked_case : exists os b' c',
  body_ops ref_parse 100 [ORetrieve; ORetrieve; OBytes] (body_init (new_body (KSize 0 false)) ex_chunked_post)
    (new_client [ok_read (B "5" ++ CRLF ++ B "abc"); ok_read (B "de")] []) = (os, b', c') /\
  os = [RPiece (B "abc") None; RPiece (B "de") None; RBytes (BRErr BNet)].
Proof. eexists _, _, _. vm_compute. split; reflexivity. Qed.

(* ------------------------------------------------------------------------------------ *)
(* C56: for fixed-length bodies with at least one byte, all segmentations into non-empty reads
   and all callbacks: every call gets at least one byte, and the pieces are the body from its
   beginning; in particular there is no call for the end.  Missing: requests without a body
   (C56_refuted) and chunked bodies: *)
Theorem C56_pieces_partial : forall CS cparse max (b : body CS) r c text rest cb,
  FixedRequest max r text -> text <> [] -> stream c = text ++ rest -> Lively c ->
  exists ps res b' c', body_callback cparse max cb (body_init b r) c = (ps, res, b', c') /\
    Forall (fun p : bytes => p <> []) ps /\ exists left, text = concat ps ++ left.
Proof. exact callback_pieces. Qed.
Print Assumptions C56_pieces_partial.
(* For a chunked body the callback is also called with nothing: after the size line and at the end. *)
Theorem C56_refuted_chunked : exists c ps r b' c', Lively c /\ stream c = B "2" ++ CRLF ++ B "ab" ++ CRLF ++ B "0" ++ CRLF ++ CRLF /\
  body_op ref_parse 100 (OCallback (fun _ => true)) (body_init (new_body (KSize 0 false)) ex_chunked_post) c = (RCallback ps r, b', c') /\
  ps = [[]; B "ab"; []].
Proof.
  exists (new_client (map ok_read [B "2" ++ CRLF; B "ab" ++ CRLF; B "0" ++ CRLF ++ CRLF]) []). eexists _, _, _, _.
  split; [repeat constructor; discriminate|]. split; [reflexivity|]. vm_compute. split; reflexivity.
Qed.
Print Assumptions C56_refuted_chunked.
(* the size of the reads matters: an empty read is passed on *)
Example C56_case : let c := new_client (map ok_read [B "he"; B "llo worldGET"]) [] in
  Lively c /\ FixedRequest 100 (ex_post 11) (B "hello world") /\ stream c = B "hello world" ++ B "GET" /\
  fst (fst (fst (body_callback no_decoder 100 (fun _ => true) (body_init (new_body tt) (ex_post 11)) c))) = [B "he"; B "llo world"] /\
  fst (fst (fst (body_callback no_decoder 100 (fun _ => true) (body_init (new_body tt) (ex_post 3))
     (new_client (map ok_read [B "a"; []; B "bc"]) [])))) = [B "a"; []; B "bc"].
Proof. split; [repeat constructor; discriminate|]. vm_compute. repeat split; discriminate. Qed.
