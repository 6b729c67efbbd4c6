(* internal/hexconv, internal/uridecode: percent decoding. *)
From Verif Require Import M_Base M_Status.

(* internal/hexconv/hexconv.go:3-32  decodeTable / Parse: the table is 0 for every byte
   that is not a hexadecimal digit. *)
Definition hexconv (c : byte) : byte :=
  let n := bN c in
  if (48 <=? n)%N && (n <=? 57)%N then byte_of_N (n - 48)
  else if (97 <=? n)%N && (n <=? 102)%N then byte_of_N (n - 87)
  else if (65 <=? n)%N && (n <=? 70)%N then byte_of_N (n - 55)
  else x00.

(* internal/uridecode/decoder.go:11-27  Decode, contents only (see uri_decode_mem below for
   the in-place variant).  Scans for '%', copies what is before it, decodes two nibbles.
   [i >= len(src)-2] is the failing truncated escape.  [buff] is what has been written to
   the destination so far; the result when nothing was written is src itself. *)
Fixpoint uri_decode_aux (fuel : nat) (src buff : bytes) : option bytes :=
  match fuel with
  | O => None
  | S f =>
      match cut src x25 with
      | Some (a, h :: l :: rest) =>
          uri_decode_aux f rest (buff ++ a ++ [bor (shl4 (hexconv h)) (hexconv l)])
      | Some (_, _) => None
      | None => match buff with
                | [] => Some src
                | _ => Some (buff ++ src)
                end
      end
  end.
Definition uri_decode (src : bytes) : option bytes := uri_decode_aux (S (List.length src)) src [].

(* The same function when source and destination share memory, the way both callers invoke
   it: Decode(s, s[:0]) (parser.go:171, query/internal/parser.go:18).  [mem] is the backing
   array from the start of s to the end of its capacity; [r] is the offset of what is left
   of src, [e] the end of src, [w] the number of bytes written so far (append to s[:0]
   writes in place as long as it stays within the capacity, i.e. within mem).  Writing
   follows Go's append/copy: memmove semantics, i.e. the source range is read before the
   destination range is overwritten.  None = ErrURIDecoding, together with the memory. *)
Definition slice (mem : bytes) (i j : nat) : bytes := firstn (j - i) (skipn i mem).
Definition write_at (mem : bytes) (off : nat) (d : bytes) : bytes :=
  firstn off mem ++ d ++ skipn (off + List.length d) mem.
Fixpoint uri_decode_mem_aux (fuel : nat) (mem : bytes) (r e w : nat) : bytes * option (nat * nat) :=
  match fuel with
  | O => (mem, None)
  | S f =>
      match cut (slice mem r e) x25 with
      | Some (a, h :: l :: _) =>
          let i := List.length a in
          (* append(buff, src[:i]...) *)
          let mem1 := write_at mem w (slice mem r (r + i)) in
          (* append(buff, hex(src[i+1])<<4|hex(src[i+2])), reading the updated memory *)
          let h' := nth (r + i + 1) mem1 x00 in
          let l' := nth (r + i + 2) mem1 x00 in
          let mem2 := write_at mem1 (w + i) [bor (shl4 (hexconv h')) (hexconv l')] in
          uri_decode_mem_aux f mem2 (r + i + 3) e (w + i + 1)
      | Some (_, _) => (mem, None)
      | None =>
          if Nat.eqb w 0 then (mem, Some (r, e))
          else let d := slice mem r e in
               (write_at mem w d, Some (0, w + (e - r)))
      end
  end.
(* result: the memory afterwards, and the returned slice [from, to) in it *)
Definition uri_decode_mem (mem : bytes) (e : nat) : bytes * option (nat * nat) :=
  uri_decode_mem_aux (S e) mem 0 e 0.
