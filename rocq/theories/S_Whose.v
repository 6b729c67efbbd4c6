(* Specification of who gets a request of which these are the Host headers: a router or a code. *)
From Verif Require Import M_Base M_Status M_Request M_Suit M_Virtual S_KeyValue S_Virtual.

Inductive Whose {W} (os : list (vop W)) : list bytes -> router W + code -> Prop :=
| Y_host h x : HostIs os h x -> Whose os [h] (inl x)
| Y_unknown h x : NoHost os h -> DefaultIs os x -> Whose os [h] (inl x)
| Y_misdirected h : NoHost os h -> NoDefault os -> Whose os [h] (inr 421%N)
| Y_none x : DefaultIs os x -> Whose os [] (inl x)
| Y_bad : NoDefault os -> Whose os [] (inr 400%N)
| Y_many a b l : Whose os (a :: b :: l) (inr 400%N).
