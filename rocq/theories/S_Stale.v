(* Specification vocabulary: what a body object has been through. *)
From Verif Require Import M_Base M_Status M_Request M_Parser M_Client M_Body.

(* the requests a body object was used for, one after the other, each with what was called on it (the
   Discard of Request.Clear included), and the answers *)
Fixpoint lives {CS} (cparse : CS -> bytes -> bool -> CS * (bytes * bytes * option cerr)) (max : Z)
    (l : list (request * list bop)) (b : body CS) (c : client) : list (list bout) * body CS * client :=
  match l with
  | [] => ([], b, c)
  | (r, ops) :: l' => let '(os, b1, c1) := body_ops cparse max ops (body_init b r) c in
                      let '(oss, b2, c2) := lives cparse max l' b1 c1 in (os :: oss, b2, c2)
  end.
(* the text the last call of Bytes answered with *)
Fixpoint last_whole (old : bytes) (os : list bout) : bytes :=
  match os with
  | [] => old
  | RBytes (BROk d) :: os' => last_whole d os'
  | _ :: os' => last_whole old os'
  end.
(* no call of Bytes failed *)
Definition NoneFailed (os : list bout) : Prop := forall r, In (RBytes r) os -> exists d, r = BROk d.
(* a callback that takes everything *)
Definition takes_all : list bytes -> bool := fun _ => true.
