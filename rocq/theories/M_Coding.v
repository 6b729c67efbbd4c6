(* http/coding: content codings. *)
From Verif Require Import M_Base.

(* http/coding/codings.go:18-22: a coder, an arbitrary value of the Coding interface.  Coders
   may fail; a stateful coder is out of scope.  Token() is assumed to return the same token
   on each call. *)
Record coder := Coder { cd_token : bytes; cd_encode : bytes -> option bytes; cd_decode : bytes -> option bytes }.

(* codings.go:26-29  Manager.codings, a map: latest assignment first *)
Definition manager := list (bytes * coder).
Definition new_manager : manager := [].
Fixpoint map_find (m : manager) (t : bytes) : option coder :=
  match m with
  | [] => None
  | (k, c) :: m' => if beqb k t then Some c else map_find m' t
  end.
(* codings.go:36-50  AddCoding *)
Definition add_coding (m : manager) (c : coder) : manager :=
  let m1 := (cd_token c, c) :: m in
  if beqb (cd_token c) (B "gzip") then (B "x-gzip", c) :: m1
  else if beqb (cd_token c) (B "compress") then (B "x-compress", c) :: m1
  else m1.

(* result: output, the coder's own error, or ErrUnknownToken *)
Inductive coding_result := COk (d : bytes) | CCoderError | CUnknown.
Definition of_coder (r : option bytes) : coding_result := match r with Some d => COk d | None => CCoderError end.
(* codings.go:52-63  Encode *)
Definition m_encode (m : manager) (t input : bytes) : coding_result :=
  if beqb t (B "identity") || match input with [] => true | _ => false end then COk input
  else match map_find m t with None => CUnknown | Some c => of_coder (cd_encode c input) end.
(* codings.go:65-76  Decode *)
Definition m_decode (m : manager) (t input : bytes) : coding_result :=
  if beqb t (B "identity") || match input with [] => true | _ => false end then COk input
  else match map_find m t with None => CUnknown | Some c => of_coder (cd_decode c input) end.
