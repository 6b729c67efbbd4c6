(* Specification for C104: a peer that never pauses longer than a given time. *)
From Verif Require Import M_Base M_Client M_Timed.

(* the bytes arrive in order, none later than [gap] after the one before; the first at most [gap]
   after [last] *)
Fixpoint Steady (gap last : Z) (s : list (Z * byte)) : Prop :=
  match s with
  | [] => True
  | (t, _) :: s' => (last <= t /\ t <= last + gap)%Z /\ Steady gap t s'
  end.
(* the time of the last byte *)
Definition last_time (now : Z) (s : list (Z * byte)) : Z := fold_left (fun _ x => fst x) s now.
(* when a list of reads ended *)
Definition ended (now : Z) (rs : list ((bytes * option neterr) * Z)) : Z := fold_left (fun _ x => snd x) rs now.
Definition data_of (rs : list ((bytes * option neterr) * Z)) : bytes := concat (map (fun x => fst (fst x)) rs).
(* how a read ends that begins at w with nothing left to read *)
Definition last_read (timeout w : Z) (en : option (Z * neterr)) : (bytes * option neterr) * Z :=
  match en with
  | Some (u, e) => if (u <=? w + timeout)%Z then (([], Some e), Z.max w u) else (([], Some NOther), (w + timeout)%Z)
  | None => (([], Some NOther), (w + timeout)%Z)
  end.
(* the time the server spends between the reads *)
Definition total (ds : list (Z * nat)) : Z := fold_right (fun x a => (fst x + a)%Z) 0%Z ds.
(* one byte every [gap] *)
Fixpoint every (gap : Z) (t : Z) (bs : bytes) : list (Z * byte) :=
  match bs with [] => [] | b :: bs' => ((t + gap)%Z, b) :: every gap (t + gap) bs' end.
