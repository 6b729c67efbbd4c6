(* M_Many.v with handlers that run at the same time.  A handler takes what it needs of the things
   handlers share when it begins; meanwhile others may begin and end.  So the state a handler
   sees need not be the one its predecessor in the order of the endings has left: it may be any.
   (A handler that looks at shared things again later is not modelled.) *)
From Verif Require Import M_Base M_Status M_Request M_Parser M_Client M_Body M_Response M_Serializer M_Suit M_Many.

Section Overlap.
Variable CS : Type.
Variable cparse : CS -> bytes -> bool -> CS * (bytes * bytes * option cerr).
Variable max_body : Z.
Variable cfg : hcfg.
Variable W : Type.
Variable on_request : W -> request -> hprog W.
Variable on_error : W -> request -> http_error -> hprog W.

(* rounds (suit.go:58-121) in the order of their endings, each with the connection and with what
   its handler sees *)
Fixpoint steps_seeing (l : list (nat * W)) (m : many CS W) : option (many CS W) :=
  match l with
  | [] => Some m
  | (i, w) :: l' =>
      match step cparse max_body cfg on_request on_error i (Many w (m_dead m) (m_slots m)) with
      | Some m' => steps_seeing l' m'
      | None => None
      end
  end.
End Overlap.
Arguments steps_seeing {CS} cparse max_body cfg {W}.
