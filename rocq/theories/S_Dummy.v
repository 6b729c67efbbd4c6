(* Specification of the client of the tests. *)
From Coq Require Import List PeanoNat.
From Verif Require Import M_Base M_Dummy.
Import ListNotations.

(* what the reads of a sequence of calls give: what was given back last since the read before,
   unless it is empty; otherwise the next piece, from the beginning again after the last.
   [next]: how many pieces were given out *)
Fixpoint gives (data : list bytes) (next : nat) (back : bytes) (calls : list (option bytes)) : list dread :=
  match calls with
  | [] => []
  | Some d :: calls' => gives data next d calls'
  | None :: calls' =>
      match back with
      | [] => DData (nth (next mod List.length data) data []) :: gives data (S next) [] calls'
      | _ => DData back :: gives data next [] calls'
      end
  end.
(* the calls of Read *)
Definition is_read (c : option bytes) : bool := match c with None => true | Some _ => false end.
