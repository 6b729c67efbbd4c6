(* What a handler may expect of the memory it lends to a response, said with the sizes of the
   slices only. *)
From Verif Require Import M_Base M_Status M_Response M_RespMem.

(* the slice shows an array of the memory, within its bounds *)
Definition Lendable (h : heap) (s : option gslice) : Prop :=
  match s with
  | None => True
  | Some s => exists a, nth_error h (gs_arr s) = Some a /\ (gs_len s <= gs_cap s)%nat /\
                        (gs_off s + gs_cap s <= List.length (ar_bytes a))%nat
  end.
Definition LendableCall (h : heap) (c : bcall) : Prop :=
  match c with
  | CBytes b | CWrite b | CString b => Lendable h b
  | CJson _ (Some s) => Lendable h s
  | CJson _ None | CClear => True
  end.

(* where the body is: nowhere, in memory of its own, or in memory lent to it: so many bytes
   of a slice with such a capacity *)
Inductive whose := Nobodys | Its_own | Lent (length capacity : nat).
Definition lent (s : option gslice) : whose := match s with None => Nobodys | Some s => Lent (gs_len s) (gs_cap s) end.
Definition lent_text (s : option gslice) : whose := match s with None => Nobodys | Some s => Lent (gs_len s) (gs_len s) end.
Definition size (s : option gslice) : nat := match s with None => 0 | Some s => gs_len s end.
(* adding n bytes; None: they go to lent memory *)
Definition add (n : nat) (w : whose) : option whose :=
  match n, w with
  | O, _ => Some w
  | _, Lent l c => if (l + n <=? c)%nat then None else Some Its_own
  | _, _ => Some Its_own
  end.
Fixpoint adds (ns : list nat) (w : whose) : option whose :=
  match ns with [] => Some w | n :: ns' => match add n w with Some w' => adds ns' w' | None => None end end.
Definition emptied (w : whose) : whose := match w with Lent _ c => Lent 0 c | _ => w end.
Definition call_on (c : bcall) (w : whose) : option whose :=
  match c with
  | CBytes b => Some (lent b)
  | CString s => Some (lent_text s)
  | CWrite b => add (size b) w
  | CJson ps e => match adds (map (@List.length byte) ps) (emptied w) with
                  | Some w' => Some (match e with None => w' | Some s => lent_text s end)
                  | None => None
                  end
  | CClear => Some Nobodys
  end.
Fixpoint calls_on (cs : list bcall) (w : whose) : option whose :=
  match cs with [] => Some w | c :: cs' => match call_on c w with Some w' => calls_on cs' w' | None => None end end.
(* no call adds to lent memory *)
Definition Careful (cs : list bcall) : Prop := calls_on cs Nobodys <> None.

(* the same calls as M_Response knows them: with the bytes the slices show *)
Definition as_rop (h : heap) (c : bcall) : rop :=
  match c with
  | CBytes b | CString b => RBody (gs_get h b)
  | CWrite b => RWrite (gs_get h b)
  | CJson ps e => RJson ps (option_map (fun s => EOther (gs_get h s)) e)
  | CClear => RClear
  end.
(* nothing of the memory there was is changed *)
Definition Kept (h h' : heap) : Prop := exists new, h' = h ++ new.
