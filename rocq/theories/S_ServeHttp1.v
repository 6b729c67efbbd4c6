(* Specification: which settings mean something, and serving round by round. *)
From Verif Require Import M_Base M_Config M_Status M_Request M_Parser M_Suit M_ServeHttp1 S_Head S_Values.

(* the settings that limit what a peer may send, as limits *)
Definition limits_of (c : config) : limits :=
  Limits (url_maximal c) (hnum_maximal c) (keyspace_maximal c) (valspace_maximal c) (max_value_length c) (max_encoding_tokens c).
(* two configurations that differ in one setting at most *)
Definition DifferIn (s : setting) (c c' : config) : Prop :=
  (forall s', s' <> s -> get_setting s' c = get_setting s' c') /\ default_headers c = default_headers c'.

(* rounds until one says that it was the last; None: not yet *)
Fixpoint rounds {St Fin : Type} (round : St -> Fin + St) (n : nat) (st : St) : option Fin :=
  match n with
  | O => None
  | S n' => match round st with inl fin => Some fin | inr st' => rounds round n' st' end
  end.
