(* Foundations shared by all model files: bytes, byte strings, and the handful of
   functions of Go's standard library the code in /repo relies on.  No proofs here. *)
From Coq Require Export Init.Byte Strings.Byte Strings.String.
From Coq Require Export NArith ZArith Lia Bool List.
Export ListNotations.
Global Open Scope list_scope.

(* Go []byte and string: finite byte sequences.  Contents only; where two slices share
   memory in a way that matters, the model file in question models the memory itself. *)
Definition bytes := list byte.

(* Byte-string literals. *)
Definition B (s : string) : bytes := list_byte_of_string s.
Arguments B s%string.

Definition CR : byte := x0d.
Definition LF : byte := x0a.
Definition SP : byte := x20.
Definition CRLF : bytes := [CR; LF].

Definition bN (b : byte) : N := Byte.to_N b.
Definition bZ (b : byte) : Z := Z.of_N (Byte.to_N b).
(* conversion of an integer to Go's uint8, modulo 256 *)
Definition byte_of_N (n : N) : byte :=
  match Byte.of_N (n mod 256) with Some b => b | None => x00 end.
(* a | b on uint8 *)
Definition bor (a b : byte) : byte := byte_of_N (N.lor (bN a) (bN b)).
(* a << 4 on uint8 *)
Definition shl4 (a : byte) : byte := byte_of_N (N.shiftl (bN a) 4).
(* a - b on uint8 *)
Definition bsub (a b : byte) : byte := byte_of_N (bN a + 256 - bN b).

Fixpoint beqb (a b : bytes) : bool :=
  match a, b with
  | [], [] => true
  | x :: a', y :: b' => Byte.eqb x y && beqb a' b'
  | _, _ => false
  end.

(* bytes.IndexByte *)
Fixpoint index_byte (l : bytes) (c : byte) : option nat :=
  match l with
  | [] => None
  | x :: l' => if Byte.eqb x c then Some 0%nat
               else option_map S (index_byte l' c)
  end.

(* i := bytes.IndexByte(l, c); if i != -1 then l[:i], l[i+1:] *)
Fixpoint cut (l : bytes) (c : byte) : option (bytes * bytes) :=
  match l with
  | [] => None
  | x :: l' => if Byte.eqb x c then Some ([], l')
               else match cut l' c with
                    | Some (a, b) => Some (x :: a, b)
                    | None => None
                    end
  end.

(* i := bytes.LastIndexByte(l, c); if i != -1 then l[:i], l[i+1:] *)
Fixpoint cut_last (l : bytes) (c : byte) : option (bytes * bytes) :=
  match l with
  | [] => None
  | x :: l' => match cut_last l' c with
               | Some (a, b) => Some (x :: a, b)
               | None => if Byte.eqb x c then Some ([], l') else None
               end
  end.

(* strings.HasPrefix *)
Fixpoint has_prefix (s p : bytes) : bool :=
  match p, s with
  | [], _ => true
  | y :: p', x :: s' => Byte.eqb x y && has_prefix s' p'
  | _ :: _, [] => false
  end.

(* strings.Index(s, sub): position of the first occurrence *)
Fixpoint index_sub (s sub : bytes) : option nat :=
  if has_prefix s sub then Some 0%nat
  else match s with
       | [] => None
       | _ :: s' => option_map S (index_sub s' sub)
       end.

(* l[len(l)-1] and l[:len(l)-1]; None stands for Go's index-out-of-range panic *)
Fixpoint last_byte (l : bytes) : option byte :=
  match l with
  | [] => None
  | [x] => Some x
  | _ :: l' => last_byte l'
  end.

Fixpoint drop_last (l : bytes) : bytes :=
  match l with
  | [] => []
  | [x] => []
  | x :: l' => x :: drop_last l'
  end.

Definition is_digit (b : byte) : bool := (48 <=? bN b)%N && (bN b <=? 57)%N.
Definition is_upper (b : byte) : bool := (65 <=? bN b)%N && (bN b <=? 90)%N.

(* ASCII lower case of one byte *)
Definition lower (b : byte) : byte := if is_upper b then byte_of_N (bN b + 32) else b.

(* github.com/indigo-web/utils/strcomp.EqualFold (external, not in /repo): strings of
   equal length whose bytes agree up to ASCII letter case. *)
Definition equal_fold (a b : bytes) : bool := beqb (map lower a) (map lower b).

(* strconv.AppendUint / AppendInt / Itoa: digits of [n] in [base], no leading zeros *)
Definition digit (d : N) : byte :=
  if (d <? 10)%N then byte_of_N (48 + d) else byte_of_N (87 + d).
Fixpoint digits_aux (fuel : nat) (base n : N) (acc : bytes) : bytes :=
  match fuel with
  | O => acc
  | S f => let acc' := digit (n mod base) :: acc in
           if (n <? base)%N then acc' else digits_aux f base (n / base) acc'
  end.
Definition digits (base n : N) : bytes := digits_aux (S (N.size_nat n)) base n [].
Definition itoa_N (n : N) : bytes := digits 10 n.
Definition itoa (z : Z) : bytes :=
  if (z <? 0)%Z then x2d :: itoa_N (Z.to_N (- z)) else itoa_N (Z.to_N z).
Definition hex_N (n : N) : bytes := digits 16 n.

(* Go int (64-bit two's complement) and uint wrap-around *)
Definition two64 : Z := 18446744073709551616.
Definition two63 : Z := 9223372036854775808.
Definition wrap_u64 (z : Z) : Z := z mod two64.
Definition wrap_i64 (z : Z) : Z := (z + two63) mod two64 - two63.

Definition len (l : bytes) : Z := Z.of_nat (List.length l).
