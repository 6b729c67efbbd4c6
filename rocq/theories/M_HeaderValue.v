(* http/headers/valueaccessors.go *)
From Verif Require Import M_Base.

(* valueaccessors.go:17-23  ValueOf *)
Definition value_of (s : bytes) : bytes :=
  match cut s x3b with Some (a, _) => a | None => s end.

(* valueaccessors.go:63-69 with 53-61: getParam, getParamEnd *)
Definition get_param (s sub or : bytes) : bytes :=
  match index_sub s sub with
  | Some i => value_of (skipn (i + List.length sub) s)
  | None => or
  end.

(* valueaccessors.go:49-51, 43-45 *)
Definition param_of_or (s key or : bytes) : bytes := get_param s (x3b :: key ++ [x3d]) or.
Definition param_of (s key : bytes) : bytes := param_of_or s key [].

(* valueaccessors.go:8, 37-39 *)
Definition default_encoding : bytes := B "iso-8859-1".
Definition charset_of (s : bytes) : bytes := get_param s (B ";charset=") default_encoding.

(* strconv.Atoi: optional sign, decimal digits, value within int64 *)
Fixpoint digits_value (s : bytes) (acc : Z) : option Z :=
  match s with
  | [] => Some acc
  | c :: s' => if is_digit c then digits_value s' (acc * 10 + (bZ c - 48)) else None
  end.
Definition atoi (s : bytes) : option Z :=
  let '(neg, d) := match s with
                   | x2b :: r => (false, r)
                   | x2d :: r => (true, r)
                   | _ => (false, s)
                   end in
  match d with
  | [] => None
  | _ => match digits_value d 0 with
         | Some n => let v := if neg then (- n)%Z else n in
                     if (- two63 <=? v)%Z && (v <? two63)%Z then Some v else None
         | None => None
         end
  end.
(* valueaccessors.go:26-34  QualityOf *)
Definition quality_of (s : bytes) : Z :=
  match atoi (get_param s (B ";q=0.") (B "9")) with Some q => q | None => 9%Z end.
