(* http/response.go, internal/protocol/http1/serializer.go: what becomes of the files a handler
   opens and of the readers it hands over.  Every reader goes by the number of the builder call
   that brought it. *)
From Verif Require Import M_Base M_Status M_Method M_Proto M_Client M_KeyValue M_Query M_Request M_Parser M_Response M_Serializer.

(* a response under construction, the reader in fields.Attachment, the readers nothing refers to
   any more without having closed them (os.File closes its descriptor when it is collected, which
   no order of events determines), and the number of the next call *)
Record holding := Holding {
  ho_fields : fields;
  ho_now : option nat;
  ho_lost : list nat;
  ho_next : nat
}.
Definition ho_new (f : fields) : holding := Holding f None [] 0.
(* response.go:147 and 163-166: the call sets fields.Attachment to a reader *)
Definition hands_over (o : rop) : bool :=
  match o with
  | RFile p r => match resp_try_file p r new_response with (_, None, _) => true | _ => false end
  | RAttachment (Some _) => true
  | _ => false
  end.
(* response.go:133-140: the file was opened, but TryFile returns without it *)
Definition opens_in_vain (o : rop) : bool :=
  match o with RFile p r => snd (resp_try_file p r new_response) | _ => false end.
Definition option_list (n : option nat) : list nat := match n with Some i => [i] | None => [] end.
(* one builder call; None: panic of Header *)
Definition ho_op (o : rop) (h : holding) : option holding :=
  match resp_op o (ho_fields h) with
  | None => None
  | Some f =>
      let lost := if opens_in_vain o then ho_lost h ++ [ho_next h] else ho_lost h in
      let '(now, lost) :=
        if hands_over o then (Some (ho_next h), lost ++ option_list (ho_now h))
        else match f_att f with
             | None => (None, lost ++ option_list (ho_now h))
             | Some _ => (ho_now h, lost)
             end in
      Some (Holding f now lost (S (ho_next h)))
  end.
Fixpoint ho_ops (os : list rop) (h : holding) : option holding :=
  match os with
  | [] => Some h
  | o :: os' => match ho_op o h with Some h' => ho_ops os' h' | None => None end
  end.
(* serializer.go: writing the response; the second component: the reader it closed *)
Definition ho_write (p : proto) (r : request) (h : holding) (s : serializer) (c : client) : wres * option nat :=
  let '(res, _, _, f') := write_response p r (ho_fields h) s c in
  (res, match f_att (ho_fields h), f_att f' with
        | Some a, Some a' => if Nat.ltb (at_closes a) (at_closes a') then ho_now h else None
        | _, _ => None
        end).
