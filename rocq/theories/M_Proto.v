(* http/proto: protocol tokens and the choice of an upgrade. *)
From Verif Require Import M_Base.

(* http/proto/proto.go:7-14.  Proto is a uint8 bit set (HTTP10 = 2, HTTP11 = 4, HTTP2 = 8);
   only the four named values are ever produced by the code. *)
Inductive proto := PUnknown | HTTP10 | HTTP11 | HTTP2.

Definition proto_eqb (a b : proto) : bool :=
  match a, b with
  | PUnknown, PUnknown | HTTP10, HTTP10 | HTTP11, HTTP11 | HTTP2, HTTP2 => true
  | _, _ => false
  end.

(* http/proto/proto.go:17-24  String: note the trailing space, and "" for Unknown *)
Definition proto_string (p : proto) : bytes :=
  match p with
  | HTTP10 => B "HTTP/1.0 "
  | HTTP11 => B "HTTP/1.1 "
  | HTTP2 => B "HTTP/2 "
  | PUnknown => []
  end.

(* http/proto/proto.go:46-52  Parse, with majorMinorVersionLUT of lines 33-36.  The
   arguments are uint8. *)
Definition proto_parse (major minor : byte) : proto :=
  if (9 <? bN major)%N || (9 <? bN minor)%N then PUnknown
  else match bN major, bN minor with
       | 1%N, 0%N => HTTP10
       | 1%N, 1%N => HTTP11
       | 2%N, 0%N => HTTP2
       | _, _ => PUnknown
       end.

(* http/proto/proto.go:38-44  FromBytes: byte 6 (the dot) is not looked at *)
Definition proto_from_bytes (raw : bytes) : proto :=
  match raw with
  | [h; t1; t2; p; sl; major; _; minor] =>
      if beqb [h; t1; t2; p; sl] (B "HTTP/") then proto_parse (bsub major x30) (bsub minor x30)
      else PUnknown
  | _ => PUnknown
  end.

(* strings.TrimSpace (Go standard library): removes leading and trailing Unicode white
   space.  A rune is white space iff its UTF-8 encoding is one of the following. *)
Definition space_encodings : list bytes :=
  [ [x09]; [x0a]; [x0b]; [x0c]; [x0d]; [x20];
    [xc2; x85]; [xc2; xa0]; [xe1; x9a; x80];
    [xe2; x80; x80]; [xe2; x80; x81]; [xe2; x80; x82]; [xe2; x80; x83]; [xe2; x80; x84];
    [xe2; x80; x85]; [xe2; x80; x86]; [xe2; x80; x87]; [xe2; x80; x88]; [xe2; x80; x89];
    [xe2; x80; x8a]; [xe2; x80; xa8]; [xe2; x80; xa9]; [xe2; x80; xaf]; [xe2; x81; x9f];
    [xe3; x80; x80] ].
Fixpoint strip_one (encs : list bytes) (l : bytes) : option bytes :=
  match encs with
  | [] => None
  | e :: encs' => if has_prefix l e then Some (skipn (List.length e) l) else strip_one encs' l
  end.
Fixpoint strip_all (fuel : nat) (encs : list bytes) (l : bytes) : bytes :=
  match fuel with
  | O => l
  | S f => match strip_one encs l with
           | Some l' => strip_all f encs l'
           | None => l
           end
  end.
Definition trim_left_space (l : bytes) : bytes := strip_all (List.length l) space_encodings l.
Definition trim_right_space (l : bytes) : bytes :=
  rev (strip_all (List.length l) (map (@rev byte) space_encodings) (rev l)).
Definition trim_space (l : bytes) : bytes := trim_right_space (trim_left_space l).

(* http/proto/upgrade.go:23-34  parseUpgradeToken *)
Definition parse_upgrade_token (t : bytes) : proto :=
  if beqb t (B "http/1.0") || beqb t (B "HTTP/1.0") then HTTP10
  else if beqb t (B "http/1.1") || beqb t (B "HTTP/1.1") then HTTP11
  else if beqb t (B "h2c") || beqb t (B "H2C") then HTTP2
  else PUnknown.

(* http/proto/upgrade.go:7-20  ChooseUpgrade, with cutbyte of lines 36-44.  [fuel] bounds
   the number of loop iterations by the length of the line, which each iteration shortens. *)
Fixpoint choose_upgrade_aux (fuel : nat) (line : bytes) : proto :=
  match fuel, line with
  | O, _ => PUnknown
  | _, [] => PUnknown
  | S f, _ =>
      let '(token, rest) := match cut line x2c with
                            | Some (a, b) => (a, b)
                            | None => (line, [])
                            end in
      match parse_upgrade_token (trim_space token) with
      | PUnknown => choose_upgrade_aux f rest
      | p => p
      end
  end.
Definition choose_upgrade (line : bytes) : proto := choose_upgrade_aux (List.length line) line.
