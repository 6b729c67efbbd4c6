(* http/response.go once more, with the memory of the body: Bytes and String make the body a
   slice of memory the caller owns, Write and TryJSON append to it.  M_Response treats the body
   as a value; P_RespMem says when that is right. *)
From Verif Require Import M_Base M_Status M_Client M_Mem.

(* an array in memory; read-only: the constants of the program, such as string literals *)
Record array := Arr { ar_bytes : bytes; ar_ro : bool }.
Definition heap := list array.
(* a Go slice: the array it shows, where it begins, its length and its capacity *)
Record gslice := GS { gs_arr : nat; gs_off : nat; gs_len : nat; gs_cap : nat }.
(* []byte; None is nil *)
Definition gs_get (h : heap) (s : option gslice) : bytes :=
  match s with
  | None => []
  | Some s => match nth_error h (gs_arr s) with
              | Some a => firstn (gs_len s) (skipn (gs_off s) (ar_bytes a))
              | None => []
              end
  end.
(* s[:0] *)
Definition gs_empty (s : option gslice) : option gslice :=
  match s with None => None | Some s => Some (GS (gs_arr s) (gs_off s) 0 (gs_cap s)) end.
(* uf.S2B (external): the bytes of a string, without copying and with no capacity to spare *)
Definition s2b (s : option gslice) : option gslice :=
  match s with None => None | Some s => Some (GS (gs_arr s) (gs_off s) (gs_len s) (gs_len s)) end.
Definition set_arr (h : heap) (i : nat) (a : array) : heap := firstn i h ++ a :: skipn (S i) h.
(* writing to an array *)
Definition ar_put (a : array) (off : nat) (d : bytes) : array :=
  Arr (firstn off (ar_bytes a) ++ d ++ skipn (off + List.length d) (ar_bytes a)) (ar_ro a).

(* the memory, the Body field, and which arrays were written to *)
Record mresp := MResp { mr_heap : heap; mr_body : option gslice; mr_wrote : list nat }.

Section Grow.
(* how much capacity the runtime gives a slice that has to grow, beyond what is needed *)
Variable spare : nat -> nat -> nat.

(* append(s, d...): in place if there is room, otherwise into a new array.  None: a write to
   read-only memory, which ends the process *)
Definition go_append (d : bytes) (r : mresp) : option mresp :=
  let fresh old :=
    let n := List.length old + List.length d in
    let extra := spare (List.length old) n in
    Some (MResp (mr_heap r ++ [Arr (old ++ d ++ repeat x00 extra) false])
                (Some (GS (List.length (mr_heap r)) 0 n (n + extra))) (mr_wrote r)) in
  match d with
  | [] => Some r
  | _ =>
      match mr_body r with
      | None => fresh []
      | Some s =>
          if (gs_len s + List.length d <=? gs_cap s)%nat then
            match nth_error (mr_heap r) (gs_arr s) with
            | None => None        (* not reached: slices show arrays that exist *)
            | Some a =>
                if ar_ro a then None
                else Some (MResp (set_arr (mr_heap r) (gs_arr s) (ar_put a (gs_off s + gs_len s) d))
                                 (Some (GS (gs_arr s) (gs_off s) (gs_len s + List.length d) (gs_cap s)))
                                 (mr_wrote r ++ [gs_arr s]))
            end
          else fresh (gs_get (mr_heap r) (Some s))
      end
  end.
Fixpoint go_appends (ds : list bytes) (r : mresp) : option mresp :=
  match ds with [] => Some r | d :: ds' => match go_append d r with Some r' => go_appends ds' r' | None => None end end.

Definition set_mbody (b : option gslice) (r : mresp) : mresp := MResp (mr_heap r) b (mr_wrote r).

(* the builder calls that concern the body; arguments are slices, strings included *)
Inductive bcall :=
| CBytes (b : option gslice)                       (* response.go:114-117 *)
| CString (s : option gslice)                      (* response.go:108-110, and 216-218: Error with an error that is not an HTTPError, of which s is the text *)
| CWrite (b : option gslice)                       (* response.go:120-123 *)
| CJson (ps : list bytes) (e : option (option gslice))   (* response.go:176-195; what the encoder (external) wrote and, if Flush failed, the text of its error *)
| CClear.                                          (* response.go:227-230; fields.go:31 *)
Definition bcall_run (c : bcall) (r : mresp) : option mresp :=
  match c with
  | CBytes b => Some (set_mbody b r)
  | CString s => Some (set_mbody (s2b s) r)
  | CWrite b => go_append (gs_get (mr_heap r) b) r
  | CJson ps e =>
      match go_appends ps (set_mbody (gs_empty (mr_body r)) r) with
      | Some r' => Some (match e with None => r' | Some s => set_mbody (s2b s) r' end)
      | None => None
      end
  | CClear => Some (set_mbody None r)
  end.
Fixpoint bcalls_run (cs : list bcall) (r : mresp) : option mresp :=
  match cs with [] => Some r | c :: cs' => match bcall_run c r with Some r' => bcalls_run cs' r' | None => None end end.
End Grow.

(* response.go:35-43  NewResponse, while the memory is h *)
Definition new_mresp (h : heap) : mresp := MResp h None [].

(* client.go:47-49, body.go:172: a slice of the connection's buffer as handed to a handler;
   both slicings keep the capacity, which is what is left of the buffer *)
Definition of_buffer (m : bytes) (s : slice) : gslice := GS 0 (sl_off s) (sl_len s) (List.length m - sl_off s).
(* the buffer is array 0 of the memory *)
Definition buffer_heap (c : mclient) (h : heap) : heap := Arr (mc_mem c) false :: h.
Definition with_buffer (c : mclient) (h : heap) : mclient :=
  match h with
  | a :: _ => MClient (mc_net c) (ar_bytes a) (mc_pending c) (mc_out c) (mc_wres c)
  | [] => c
  end.
