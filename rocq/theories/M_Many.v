(* indi.go:126-149 with internal/tcp/server.go:44-45, 72-76: many connections are served at once,
   each by a goroutine of its own (http/serve/http1.go:14-21, suit.go), all with the same router.
   One step is one round of the loop of one connection (suit.go:58-121), in any order.  The only
   things connections share are the router and what handlers share, W: a handler sees W as it is
   when it starts, and what it leaves there is there when it ends.  (M_Overlap.v: two handlers
   running at the same time.) *)
From Verif Require Import M_Base M_Status M_Request M_Parser M_Client M_Body M_Response M_Serializer M_Suit.

Section Many.
Variable CS : Type.
Variable cparse : CS -> bytes -> bool -> CS * (bytes * bytes * option cerr).
Variable max_body : Z.
Variable cfg : hcfg.
Variable W : Type.
Variable on_request : W -> request -> hprog W.
Variable on_error : W -> request -> http_error -> hprog W.

(* suit.go:58-121  one round of the loop *)
Definition round (st : conn CS W) : (ending * conn CS W) + conn CS W :=
  let '((data, e), c1) := client_read (k_client st) in
  let st := set_k_client c1 st in
  match e with
  | Some _ => inl (close_with cparse max_body on_error EndRead st)
  | None =>
      match parse cfg (k_parser st) data with
      | RPending p => inr (set_k_parser p st)
      | RDone p extra => on_head cparse max_body on_request on_error (set_k_parser p st) extra
      | RErr p err => inl (on_bad_head cparse max_body on_error (set_k_parser p st) err)
      | RPanic => inl (EndPanic, st)
      | RStuck => inl (EndStuck, st)
      end
  end.

Inductive slot := Going (st : conn CS W) | Over (e : ending) (st : conn CS W).
(* [m_dead]: a goroutine panicked, which ends the process *)
Record many := Many { m_world : W; m_dead : bool; m_slots : list slot }.
Definition with_world (w : W) (st : conn CS W) : conn CS W := Conn (k_parser st) (k_ser st) (k_client st) (k_body st) (k_pre st) w.
Fixpoint put (l : list slot) (i : nat) (x : slot) : list slot :=
  match l, i with [], _ => [] | _ :: l', O => x :: l' | y :: l', S j => y :: put l' j x end.
(* a round of connection i; None: it cannot run *)
Definition step (i : nat) (m : many) : option many :=
  if m_dead m then None
  else match nth_error (m_slots m) i with
       | Some (Going st) =>
           match round (with_world (m_world m) st) with
           | inl (e, st') => Some (Many (k_world st') (match e with EndPanic => true | _ => false end) (put (m_slots m) i (Over e st')))
           | inr st' => Some (Many (k_world st') false (put (m_slots m) i (Going st')))
           end
       | _ => None
       end.
Fixpoint steps (l : list nat) (m : many) : option many :=
  match l with [] => Some m | i :: l' => match step i m with Some m' => steps l' m' | None => None end end.
End Many.
Arguments round {CS} cparse max_body cfg {W}. Arguments Going {CS W}. Arguments Over {CS W}. Arguments Many {CS W}. Arguments m_world {CS W}. Arguments m_dead {CS W}. Arguments m_slots {CS W}.
Arguments with_world {CS W}. Arguments put {CS W}. Arguments step {CS} cparse max_body cfg {W}. Arguments steps {CS} cparse max_body cfg {W}.
