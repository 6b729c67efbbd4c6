(* internal/tcp/client.go with a clock: what the reads of a connection return when the bytes of
   the peer arrive over time.  Times in nanoseconds, as time.Duration. *)
From Verif Require Import M_Base M_Client.

(* net.Conn: the bytes the peer sends with the times they arrive, and when its side ends, if ever,
   and how *)
Record socket := Socket { so_bytes : list (Z * byte); so_end : option (Z * neterr) }.
(* what has arrived by a time *)
Fixpoint arrived (t : Z) (s : list (Z * byte)) : list (Z * byte) :=
  match s with
  | (u, b) :: s' => if (u <=? t)%Z then (u, b) :: arrived t s' else []
  | [] => []
  end.
(* client.go:43-49: SetReadDeadline(now + timeout), then conn.Read into a buffer of [size] bytes,
   without pending data: what it returns, the time it returns, and the socket then.  A deadline
   that is not in the future fails at once; a byte that arrives at the very deadline counts as
   in time.  [want]: how many of the bytes that are there the system returns, at least one. *)
Definition timed_read (size : nat) (timeout : Z) (want : nat) (now : Z) (s : socket) : (bytes * option neterr) * Z * socket :=
  if (timeout <=? 0)%Z then (([], Some NOther), now, s)
  else match so_bytes s with
       | [] =>
           match so_end s with
           | Some (t, e) => if (t <=? now + timeout)%Z then (([], Some e), Z.max now t, s)
                            else (([], Some NOther), (now + timeout)%Z, s)
           | None => (([], Some NOther), (now + timeout)%Z, s)
           end
       | (t, b) :: _ =>
           if (t <=? now + timeout)%Z then
             let at_ := Z.max now t in
             let k := Nat.min (Nat.max 1 want) (Nat.min size (List.length (arrived at_ (so_bytes s)))) in
             ((map snd (firstn k (so_bytes s)), None), at_, Socket (skipn k (so_bytes s)) (so_end s))
           else (([], Some NOther), (now + timeout)%Z, s)
       end.
(* successive reads; each step: the time the server spends before the read, and what the system
   returns at most *)
Fixpoint timed_reads (size : nat) (timeout : Z) (steps : list (Z * nat)) (now : Z) (s : socket) : list ((bytes * option neterr) * Z) :=
  match steps with
  | [] => []
  | (d, want) :: steps' =>
      let '(ev, t, s') := timed_read size timeout want (now + d) s in
      (ev, t) :: timed_reads size timeout steps' t s'
  end.
(* the connection of M_Client.v that has these reads ahead *)
Definition timed_client (size : nat) (timeout : Z) (steps : list (Z * nat)) (now : Z) (s : socket) (wres : list (option nat)) : client :=
  new_client (map fst (timed_reads size timeout steps now s)) wres.
