(* internal/tcp/dummy/client.go: the client tests are run with.  conn.go has no behaviour. *)
From Verif Require Import M_Base.

(* client.go:13-18 *)
Record circular := Circular { d_data : list bytes; d_tmp : bytes; d_pointer : nat; d_closed : bool; d_onetime : bool }.
(* client.go:20-25 *)
Definition new_circular (data : list bytes) : circular := Circular data [] 0 false false.
Inductive dread := DData (d : bytes) | DEof | DPanic.
(* client.go:27-48  Read *)
Definition d_read (c : circular) : dread * circular :=
  if d_closed c then (DEof, c) else
  let c := if d_onetime c then Circular (d_data c) (d_tmp c) (d_pointer c) true true else c in
  match d_tmp c with
  | _ :: _ => (DData (d_tmp c), Circular (d_data c) [] (d_pointer c) (d_closed c) (d_onetime c))
  | [] =>
      let pointer := if (List.length (d_data c) <=? d_pointer c)%nat then 0%nat else d_pointer c in
      match nth_error (d_data c) pointer with
      | None => (DPanic, Circular (d_data c) [] pointer (d_closed c) (d_onetime c))
      | Some piece => (DData piece, Circular (d_data c) [] (S pointer) (d_closed c) (d_onetime c))
      end
  end.
(* client.go:50-52  Unread *)
Definition d_unread (c : circular) (takeback : bytes) : circular :=
  Circular (d_data c) takeback (d_pointer c) (d_closed c) (d_onetime c).
(* client.go:66-69  Close *)
Definition d_close (c : circular) : circular := Circular (d_data c) (d_tmp c) (d_pointer c) true (d_onetime c).
(* client.go:72-75  OneTime *)
Definition d_one_time (c : circular) : circular := Circular (d_data c) (d_tmp c) (d_pointer c) (d_closed c) true.
(* client.go:77-79  NewNopClient *)
Definition new_nop_client : circular := new_circular [[]].

(* several calls: Some d is Unread(d), None is Read; what the reads return *)
Fixpoint d_run (calls : list (option bytes)) (c : circular) : list dread :=
  match calls with
  | [] => []
  | Some d :: calls' => d_run calls' (d_unread c d)
  | None :: calls' => let '(x, c') := d_read c in x :: d_run calls' c'
  end.
(* client.go:80-93  SinkholeWriter *)
Definition sink_write (data b : bytes) : bytes := data ++ b.
