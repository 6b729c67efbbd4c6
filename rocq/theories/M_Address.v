(* internal/address. *)
From Verif Require Import M_Base.

(* internal/address/address.go:27-34  stripPort *)
Definition strip_port (addr : bytes) : bytes :=
  match cut addr x3a with Some (h, _) => h | None => addr end.
(* address.go:10-17  Normalize *)
Definition default_addr : bytes := B "0.0.0.0".
Definition normalize_addr (addr : bytes) : bytes :=
  match strip_port addr with [] => default_addr ++ addr | _ => addr end.
(* address.go:19-21  IsLocalhost.  strings.EqualFold (standard library) compares runes up to
   Unicode case folding: besides the two cases of each letter, of the letters of "localhost"
   only 's' has a third form, U+017F, in UTF-8 the bytes c5 bf. *)
Definition is_localhost (addr : bytes) : bool :=
  let host := strip_port addr in
  equal_fold host (B "localhost") || equal_fold host (B "localho" ++ [xc5; xbf] ++ B "t").
