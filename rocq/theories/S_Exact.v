(* Specification for exact statements: what escaping makes of every input (that of decoding is in S_Head.v). *)
From Verif Require Import M_Base M_Path S_Head.

(* C44: the well-formed multi-byte sequences of UTF-8 (Unicode, table 3-7): the range of the first
   byte, and the ranges of the others *)
Definition tail_range : N * N := (128, 191)%N.
Definition utf8_table : list ((N * N) * list (N * N)) :=
  [((194, 223), [tail_range]); ((224, 224), [(160, 191); tail_range]); ((225, 236), [tail_range; tail_range]);
   ((237, 237), [(128, 159); tail_range]); ((238, 239), [tail_range; tail_range]);
   ((240, 240), [(144, 191); tail_range; tail_range]); ((241, 243), [tail_range; tail_range; tail_range]);
   ((244, 244), [(128, 143); tail_range; tail_range])]%N.
Definition within (r : N * N) (c : byte) : Prop := (fst r <= bN c /\ bN c <= snd r)%N.
Definition MultiByte (a : byte) (t : bytes) : Prop := exists r rs, In (r, rs) utf8_table /\ within r a /\ Forall2 within rs t.
(* what stands for a byte that is not printable: a letter for some, '?' for all others *)
Definition escape_letters : list (N * byte) :=
  [(0, x30); (7, x61); (8, x62); (9, x74); (10, x6e); (11, x76); (12, x66); (13, x72)]%N.
Inductive Letter (c : byte) : byte -> Prop :=
| Le_letter : forall l, In (bN c, l) escape_letters -> Letter c l
| Le_other : (forall l, ~ In (bN c, l) escape_letters) -> Letter c x3f.
Definition shown (c : byte) : Prop := (32 <= bN c <= 126)%N.
Inductive Escapes : bytes -> bytes -> Prop :=
| Es_nil : Escapes [] []
| Es_shown : forall c s e, shown c -> Escapes s e -> Escapes (c :: s) (c :: e)
(* the first byte of a character is replaced, the others are copied *)
| Es_rune : forall a t s e, MultiByte a t -> Escapes s e -> Escapes (a :: t ++ s) (x5c :: x3f :: t ++ e)
| Es_byte : forall c s e l, ~ shown c -> (forall t u, s = t ++ u -> ~ MultiByte c t) -> Letter c l -> Escapes s e ->
    Escapes (c :: s) (x5c :: l :: e).
