(* Small specification: the first line of a response. *)
From Verif Require Import M_Base M_Response S_Response.

(* the phrase that was asked for; for codes with no phrase of their own any will do *)
Definition Phrase (code : N) (custom phrase : bytes) : Prop :=
  match custom with
  | [] => (exists q, In (code, q) standard_phrases) -> In (code, phrase) standard_phrases
  | _ => phrase = custom
  end.
(* version SP three digits SP phrase *)
Inductive StatusLine (code : N) (custom : bytes) : bytes -> Prop :=
| Status_line : forall version phrase, In version [B "HTTP/1.0"; B "HTTP/1.1"; B "HTTP/2"] ->
    List.length (itoa_N code) = 3%nat -> Phrase code custom phrase -> ~ In LF phrase ->
    StatusLine code custom (version ++ [SP] ++ itoa_N code ++ [SP] ++ phrase).
