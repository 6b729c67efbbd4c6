(* http/path.go: escaping of paths for logs. *)
From Verif Require Import M_Base.

(* Width of the rune starting at the head of a non-empty string, as Go's "for i := range"
   computes it (unicode/utf8): 1 for ASCII and for every invalid sequence. *)
Definition in_range (lo hi : N) (c : byte) : bool := (lo <=? bN c)%N && (bN c <=? hi)%N.
Definition cont (c : byte) : bool := in_range 128 191 c.
Definition rune_width (s : bytes) : nat :=
  match s with
  | a :: b :: rest =>
      if in_range 194 223 a then (if cont b then 2 else 1)
      else
        match rest with
        | c :: rest' =>
            if in_range 224 239 a then
              let ok := if (bN a =? 224)%N then in_range 160 191 b
                        else if (bN a =? 237)%N then in_range 128 159 b else cont b in
              if ok && cont c then 3 else 1
            else
              match rest' with
              | d :: _ =>
                  if in_range 240 244 a then
                    let ok := if (bN a =? 240)%N then in_range 144 191 b
                              else if (bN a =? 244)%N then in_range 128 143 b else cont b in
                    if ok && cont c && cont d then 4 else 1
                  else 1
              | [] => 1
              end
        | [] => 1
        end
  | _ => 1
  end.

(* http/path.go:33-35 *)
Definition ascii_printable (c : byte) : bool := (32 <=? bN c)%N && (bN c <=? 126)%N.

(* http/path.go:37-78: the escape table (0 for bytes without entry) and escapeByte.  The
   table is only consulted for bytes below 0x7f that are not printable, i.e. below 0x20. *)
Definition escape_byte (c : byte) : byte :=
  match c with
  | x00 => x30 | x07 => x61 | x08 => x62 | x09 => x74 | x0a => x6e | x0b => x76 | x0c => x66
  | x0d => x72
  | _ => if (bN c <? 32)%N then x3f else if (bN c <? 127)%N then x00 else x3f
  end.

(* http/path.go:7-31  Escape.  The loop visits the first byte of every rune; a printable one
   and every byte the loop does not visit stays as it is (it is part of p[offset:i] or of
   p[offset:]). *)
Fixpoint escape_aux (fuel : nat) (s : bytes) : bytes :=
  match fuel, s with
  | O, _ => []
  | _, [] => []
  | S f, c :: rest =>
      let w := rune_width s in
      (if ascii_printable c then [c] else [x5c; escape_byte c])
        ++ firstn (w - 1) rest ++ escape_aux f (skipn (w - 1) rest)
  end.
Definition escape (p : bytes) : bytes := escape_aux (List.length p) p.
