(* Specification for C93: the predefined errors. *)
From Verif Require Import M_Base M_Status M_Errors.

(* the error of a name *)
Definition Named (n : bytes) (e : http_error) : Prop := In (n, e) predefined.
(* the names of the pairs that are one value under two names *)
Definition Twins (n n' : bytes) : Prop := (n = B "ErrURITooLong" /\ n' = B "ErrRequestURITooLong") \/ (n' = B "ErrURITooLong" /\ n = B "ErrRequestURITooLong").
(* the errors that are signals and no answers *)
Definition signals : list bytes := [B "ErrCloseConnection"; B "ErrShutdown"; B "ErrGracefulShutdown"].
(* the errors with a text of their own *)
Definition own_words : list bytes :=
  [B "ErrConnectionTimeout"; B "ErrTooLongRequestLine"; B "ErrURIDecoding"; B "ErrBadQuery"; B "ErrMethodNotImplemented"; B "ErrTooLarge"; B "ErrBodyTooLarge";
   B "ErrHeaderFieldsTooLarge"; B "ErrHeaderKeyTooLarge"; B "ErrHeaderValueTooLarge"; B "ErrTooManyHeaders"; B "ErrUnsupportedProtocol"; B "ErrProxyAuthRequired"; B "ErrUnsupportedEncoding"].
