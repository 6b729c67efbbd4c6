(* Property C93: the predefined errors. *)
From Verif Require Import M_Base M_Status M_Errors M_Config S_Values S_Errors L_Base L_Values L_Errors.

(* C93: the errors can be told apart: two names with the same value are one name, except for the
   one pair of synonyms; so comparing with == never takes one error for another *)
Theorem C93_distinct : forall n n' e, Named n e -> Named n' e -> n = n' \/ Twins n n'.
Proof. intros n n' e. apply distinct_table_in. vm_compute. reflexivity. Qed.
Print Assumptions C93_distinct.
(* C93: == is equality of errors: also of errors an application makes itself *)
Theorem C93_comparison : forall a b, same_error a b = true <-> (he_code a = he_code b /\ error_text a = error_text b).
Proof.
  intros a b. rewrite same_error_eq. destruct a as [c m], b as [c' m']. cbn. split; [intro E; injection E as -> ->; auto|intros [-> ->]; reflexivity].
Qed.
Print Assumptions C93_comparison.
(* C93: every error but the signals has a status with a reason phrase, of class 4 or 5 *)
Theorem C93_status : forall n e, Named n e -> ~ In n signals ->
  status_text (he_code e) <> [] /\ status_line (he_code e) <> [] /\ (400 <= he_code e < 600)%N.
Proof.
  intros n e H N. unfold Named in H. unfold predefined in H. cbn [In] in H.
  repeat (destruct H as [H|H]; [injection H as <- <-; first [split; [discriminate|split; [discriminate|cbn; lia]]|exfalso; apply N; vm_compute; tauto]|]). destruct H.
Qed.
Print Assumptions C93_status.
(* C93: the signals have a code without a status line *)
Theorem C93_signals : forall n e, Named n e -> In n signals -> he_code e = 439%N /\ status_line (he_code e) = [].
Proof.
  intros n e H N. cbn in N. unfold Named, predefined in H. cbn [In] in H.
  repeat (destruct H as [H|H]; [injection H as <- <-; first [split; reflexivity|exfalso; repeat (destruct N as [N|N]; [discriminate N|]); exact N]|]). destruct H.
Qed.
Print Assumptions C93_signals.
(* C93: the texts: the reason phrase in small letters, but for the ones listed *)
Theorem C93_texts : forall n e, Named n e -> ~ In n signals -> ~ In n own_words -> equal_fold (error_text e) (status_text (he_code e)) = true.
Proof.
  intros n e H N1 N2. unfold Named, predefined in H. cbn [In] in H.
  repeat (destruct H as [H|H]; [injection H as <- <-; first [vm_compute; reflexivity|exfalso; apply N1; vm_compute; tauto|exfalso; apply N2; vm_compute; tauto]|]). destruct H.
Qed.
Print Assumptions C93_texts.
(* C93: the constants of the model are these *)
Theorem C93_constants : Named (B "ErrCloseConnection") ErrCloseConnection /\ Named (B "ErrShutdown") ErrShutdown /\ Named (B "ErrGracefulShutdown") ErrGracefulShutdown /\
  Named (B "ErrBadRequest") ErrBadRequest /\ Named (B "ErrTooLongRequestLine") ErrTooLongRequestLine /\ Named (B "ErrURIDecoding") ErrURIDecoding /\
  Named (B "ErrBadQuery") ErrBadQuery /\ Named (B "ErrNotFound") ErrNotFound /\ Named (B "ErrInternalServerError") ErrInternalServerError /\
  Named (B "ErrMethodNotImplemented") ErrMethodNotImplemented /\ Named (B "ErrMethodNotAllowed") ErrMethodNotAllowed /\ Named (B "ErrBodyTooLarge") ErrBodyTooLarge /\
  Named (B "ErrHeaderFieldsTooLarge") ErrHeaderFieldsTooLarge /\ Named (B "ErrTooManyHeaders") ErrTooManyHeaders /\ Named (B "ErrURITooLong") ErrURITooLong /\
  Named (B "ErrUnsupportedProtocol") ErrUnsupportedProtocol /\ Named (B "ErrUnsupportedMediaType") ErrUnsupportedMediaType /\
  Named (B "ErrUnsupportedEncoding") ErrUnsupportedEncoding /\ Named (B "ErrMisdirectedRequest") ErrMisdirectedRequest.
Proof. unfold Named, predefined. repeat split; cbn [In]; repeat (first [left; reflexivity|right]). Qed.
Print Assumptions C93_constants.
Example C93_case : Named (B "ErrTeapot") (new_error 418%N (B "i'm a teapot")) /\ same_error ErrURIDecoding ErrBadQuery = false /\ he_code ErrURIDecoding = he_code ErrBadQuery.
Proof. split; [|split; reflexivity]. unfold Named, predefined. cbn [In]. repeat (first [left; reflexivity|right]). Qed.

(* C46: the defaults are those the comments of the code give: kilobytes, megabytes, seconds *)
Theorem C46_documented : let kb := 1024%Z in let d s := get_setting s default_config in
  d SUrlDefault = (2 * kb)%Z /\ d SUrlMaximal = (64 * kb - 1)%Z /\ d SQueryPreAlloc = 10%Z /\ d SHeadersDefault = 10%Z /\ d SHeadersMaximal = 50%Z /\
  d SMaxKeyLength = 100%Z /\ d SMaxValueLength = (8 * kb)%Z /\ d SKeySpaceDefault = kb /\ d SKeySpaceMaximal = (4 * kb)%Z /\
  d SValueSpaceDefault = kb /\ d SValueSpaceMaximal = (8 * kb)%Z /\ d SMaxEncodingTokens = 15%Z /\ d SCookiesPreAllocate = 5%Z /\
  d SBodyMaxSize = (512 * kb * kb)%Z /\ d SBodyMaxChunkSize = (128 * kb)%Z /\ d SDecodingBufferSize = (8 * kb)%Z /\
  d SResponseBuffSize = kb /\ d SFileBuffSize = (64 * kb)%Z /\ d SReadBufferSize = (4 * kb)%Z /\ d SReadTimeout = (90 * 1000 * 1000 * 1000)%Z /\
  (d SUrlDefault <= d SUrlMaximal)%Z /\ (d SHeadersDefault <= d SHeadersMaximal)%Z /\ (d SKeySpaceDefault <= d SKeySpaceMaximal)%Z /\
  (d SValueSpaceDefault <= d SValueSpaceMaximal)%Z /\ default_headers default_config = Some [(B "Accept-Encodings", B "identity")].
Proof. cbv zeta. repeat split; try reflexivity; vm_compute; discriminate. Qed.
Print Assumptions C46_documented.
