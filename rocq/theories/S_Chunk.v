(* The chunked transfer coding (without extensions and trailer fields), and a reference
   decoder.  The decoder is not a model of the external one; it shows that what is assumed of
   the external decoder (S_Body.DecoderOk) can be met. *)
From Verif Require Import M_Base M_Body S_Head S_Body.

Definition hex_number (h : bytes) : option N :=
  fold_left (fun a c => match a, hex_value c with Some n, Some v => Some (16 * n + v)%N | _, _ => None end) h (Some 0%N).
Inductive Chunked : bytes -> bytes -> Prop :=
| Ch_last : forall h, h <> [] -> hex_number h = Some 0%N -> Chunked (h ++ CRLF ++ CRLF) []
| Ch_more : forall h d w t, h <> [] -> d <> [] -> hex_number h = Some (N.of_nat (List.length d)) ->
    Chunked w t -> Chunked (h ++ CRLF ++ d ++ CRLF ++ w) (d ++ t).
Definition chunked_text (tr : bool) (w d : bytes) : Prop := Chunked w d.

(* where a decoder is: reading a size, at its LF, in the data, at the CR or LF after the data,
   at the CR or LF at the end *)
Inductive kstate := KSize (n : N) (seen : bool) | KSizeLF (n : N) | KData (n : N) | KDataCR | KDataLF | KEndCR | KEndLF.
Inductive kres := KGo (s : kstate) (out : bytes) | KDone | KBad.
Definition kstep (s : kstate) (c : byte) : kres :=
  match s with
  | KSize n seen =>
      if Byte.eqb c CR then if seen then KGo (KSizeLF n) [] else KBad
      else match hex_value c with Some v => KGo (KSize (16 * n + v) true) [] | None => KBad end
  | KSizeLF n => if Byte.eqb c LF then KGo (if (n =? 0)%N then KEndCR else KData n) [] else KBad
  | KData n => KGo (if (n =? 1)%N then KDataCR else KData (n - 1)) [c]
  | KDataCR => if Byte.eqb c CR then KGo KDataLF [] else KBad
  | KDataLF => if Byte.eqb c LF then KGo (KSize 0 false) [] else KBad
  | KEndCR => if Byte.eqb c CR then KGo KEndLF [] else KBad
  | KEndLF => if Byte.eqb c LF then KDone else KBad
  end.
Fixpoint kparse (s : kstate) (data : bytes) (acc : bytes) : kstate * (bytes * bytes * option cerr) :=
  match data with
  | [] => (s, (acc, [], None))
  | c :: data' => match kstep s c with
                  | KGo s' out => kparse s' data' (acc ++ out)
                  | KDone => (KSize 0 false, (acc, data', Some CEof))
                  | KBad => (s, (acc, data, Some CErr))
                  end
  end.
Definition ref_parse (s : kstate) (data : bytes) (tr : bool) := kparse s data [].
Definition kfresh (s : kstate) : Prop := s = KSize 0 false.
(* the text w is accepted with its last byte, giving d *)
Fixpoint kaccepts (s : kstate) (w d : bytes) : Prop :=
  match w with
  | [] => False
  | c :: w' => match kstep s c with
               | KGo s' out => exists d', d = out ++ d' /\ kaccepts s' w' d'
               | KDone => w' = [] /\ d = []
               | KBad => False
               end
  end.
