(* Paths: router/inbuilt/uri/normalize.go and the functions Clean and Join of Go's package
   path that the router uses. *)
From Verif Require Import M_Base.

Definition SLASH : byte := x2f.

(* router/inbuilt/uri/normalize.go:3-11: the loop, i counting down to 2 *)
Fixpoint norm_loop (i : nat) (p : bytes) : bytes :=
  match i with
  | S (S _ as j) => if Byte.eqb (nth i p x00) SLASH then norm_loop j p else firstn (S i) p
  | _ => p
  end.
Definition normalize (p : bytes) : bytes := norm_loop (List.length p - 1) p.

(* strings.Split(p, "/") *)
Fixpoint split_slash (p : bytes) : list bytes :=
  match p with
  | [] => [[]]
  | c :: p' =>
      match split_slash p' with
      | s :: ss => if Byte.eqb c SLASH then [] :: s :: ss else (c :: s) :: ss
      | [] => [[c]]      (* not reached *)
      end
  end.
Fixpoint join_slash (ss : list bytes) : bytes :=
  match ss with
  | [] => []
  | [s] => s
  | s :: ss' => s ++ SLASH :: join_slash ss'
  end.

(* path.Clean (Go standard library).  The library works on a byte buffer; here its documented
   rules are applied element by element, [out] being the elements kept so far in reverse. *)
Fixpoint clean_elems (rooted : bool) (es : list bytes) (out : list bytes) : list bytes :=
  match es with
  | [] => rev out
  | e :: es' =>
      if beqb e [] || beqb e (B ".") then clean_elems rooted es' out
      else if beqb e (B "..") then
        match out with
        | o :: out' => if beqb o (B "..") then clean_elems rooted es' (e :: out) else clean_elems rooted es' out'
        | [] => if rooted then clean_elems rooted es' [] else clean_elems rooted es' [e]
        end
      else clean_elems rooted es' (e :: out)
  end.
Definition path_clean (p : bytes) : bytes :=
  let rooted := has_prefix p [SLASH] in
  match (if rooted then [SLASH] else []) ++ join_slash (clean_elems rooted (split_slash p) []) with
  | [] => B "."
  | q => q
  end.
(* path.Join (Go standard library) with two arguments *)
Definition path_join (a b : bytes) : bytes :=
  match a, b with
  | [], [] => []
  | [], _ => path_clean b
  | _, _ => path_clean (a ++ SLASH :: b)
  end.
