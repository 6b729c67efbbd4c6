(* http/method: request methods. *)
From Verif Require Import M_Base.

(* http/method/method.go:4-18 (iota order) *)
Inductive method :=
| MUnknown | GET | HEAD | POST | PUT | DELETE | CONNECT | OPTIONS | TRACE | PATCH.

Definition method_eqb (a b : method) : bool :=
  match a, b with
  | MUnknown, MUnknown | GET, GET | HEAD, HEAD | POST, POST | PUT, PUT | DELETE, DELETE
  | CONNECT, CONNECT | OPTIONS, OPTIONS | TRACE, TRACE | PATCH, PATCH => true
  | _, _ => false
  end.

(* http/method/method.go:25  List *)
Definition method_list : list method :=
  [GET; HEAD; POST; PUT; DELETE; CONNECT; OPTIONS; TRACE; PATCH].

(* http/method/method.go:27-60  Parse *)
Definition method_parse (s : bytes) : method :=
  match List.length s with
  | 3 => if beqb s (B "GET") then GET else if beqb s (B "PUT") then PUT else MUnknown
  | 4 => if beqb s (B "POST") then POST else if beqb s (B "HEAD") then HEAD else MUnknown
  | 5 => if beqb s (B "PATCH") then PATCH else if beqb s (B "TRACE") then TRACE else MUnknown
  | 6 => if beqb s (B "DELETE") then DELETE else MUnknown
  | 7 => if beqb s (B "CONNECT") then CONNECT
         else if beqb s (B "OPTIONS") then OPTIONS else MUnknown
  | _ => MUnknown
  end.

(* http/method/method_string.go:23-32  String: slices of one name table.  The out-of-range
   branch cannot be reached from the ten constants and is left out. *)
Definition method_name_table : bytes :=
  B "UnknownGETHEADPOSTPUTDELETECONNECTOPTIONSTRACEPATCH".
Definition method_index : list nat := [0; 7; 10; 14; 18; 21; 27; 34; 41; 46; 51].
Definition method_num (m : method) : nat :=
  match m with
  | MUnknown => 0 | GET => 1 | HEAD => 2 | POST => 3 | PUT => 4 | DELETE => 5
  | CONNECT => 6 | OPTIONS => 7 | TRACE => 8 | PATCH => 9
  end.
Definition method_string (m : method) : bytes :=
  let i := nth (method_num m) method_index 0 in
  let j := nth (S (method_num m)) method_index 0 in
  firstn (j - i) (skipn i method_name_table).
