(* internal/protocol/http1/body.go, internal/stash/reader.go: request bodies.  Slices of the
   connection buffer are values here, as in M_Client; M_Mem has the buffer itself and P_Mem
   relates the two (they differ when Read is mixed with other accessors). *)
From Verif Require Import M_Base M_Status M_Proto M_KeyValue M_Query M_Request M_Client.

(* errors a body accessor can return.  io.EOF of the connection and io.EOF as "end of body"
   are one and the same value. *)
Inductive berr := BEof | BNet | BTooLarge | BChunkErr.
Definition berr_eof (e : option berr) : bool := match e with Some BEof => true | _ => false end.
Definition of_neterr (e : neterr) : berr := match e with NEof => BEof | NOther => BNet end.

(* github.com/indigo-web/chunkedbody (external, not in /repo):
   Parse(data, hasTrailer) (chunk, extra, err) is an arbitrary state machine. *)
Inductive cerr := CEof | CErr.
Section Body.
Variable CS : Type.
Variable cparse : CS -> bytes -> bool -> CS * (bytes * bytes * option cerr).

(* body.go:17-25 with 142-145, 185-190 and stash/reader.go:6-10, one record:
   bd_left = plain.bytesLeft (uint), bd_received/bd_trailer/bd_cs = chunked.*,
   bd_pending/bd_error = the stash reader.  bd_full is fullBodyBuff; its capacity is at least
   bd_cap (growth by append beyond the length is not modelled). *)
Record body := Body {
  bd_chunked : bool; bd_clen : Z; bd_full : bytes; bd_cap : Z; bd_eof : bool;
  bd_left : Z; bd_received : Z; bd_trailer : bool; bd_cs : CS;
  bd_pending : bytes; bd_error : option berr
}.
(* body.go:27-37  NewBody *)
Definition new_body (cs : CS) : body := Body false 0 [] 0 false 0 0 false cs [] None.

(* body.go:39-50 with 154-156 and 200-203: Init.  uint(ContentLength) wraps. *)
Definition body_init (b : body) (r : request) : body :=
  if enc_chunked (r_encoding r)
  then Body true (r_content_length r) (bd_full b) (bd_cap b) false (bd_left b) 0
            (enc_trailer (r_encoding r)) (bd_cs b) [] None
  else Body false (r_content_length r) (bd_full b) (bd_cap b) false (wrap_u64 (r_content_length r))
            (bd_received b) (bd_trailer b) (bd_cs b) [] None.

Definition set_left n b := Body (bd_chunked b) (bd_clen b) (bd_full b) (bd_cap b) (bd_eof b) n (bd_received b) (bd_trailer b) (bd_cs b) (bd_pending b) (bd_error b).
Definition set_received n b := Body (bd_chunked b) (bd_clen b) (bd_full b) (bd_cap b) (bd_eof b) (bd_left b) n (bd_trailer b) (bd_cs b) (bd_pending b) (bd_error b).
Definition set_cs s b := Body (bd_chunked b) (bd_clen b) (bd_full b) (bd_cap b) (bd_eof b) (bd_left b) (bd_received b) (bd_trailer b) s (bd_pending b) (bd_error b).
Definition set_eof e b := Body (bd_chunked b) (bd_clen b) (bd_full b) (bd_cap b) e (bd_left b) (bd_received b) (bd_trailer b) (bd_cs b) (bd_pending b) (bd_error b).
Definition set_full f cap b := Body (bd_chunked b) (bd_clen b) f cap (bd_eof b) (bd_left b) (bd_received b) (bd_trailer b) (bd_cs b) (bd_pending b) (bd_error b).
Definition set_stash p e b := Body (bd_chunked b) (bd_clen b) (bd_full b) (bd_cap b) (bd_eof b) (bd_left b) (bd_received b) (bd_trailer b) (bd_cs b) p e.

Variable max_body : Z.      (* config.Body.MaxSize, uint *)

(* body.go:158-183  plainBodyReader.read *)
Definition plain_read (b : body) (c : client) : (bytes * option berr) * body * client :=
  if (bd_left b =? 0)%Z then (([], Some BEof), b, c)
  else
    let '((data, e), c1) := client_read c in
    match e with
    | Some ne => (([], Some (of_neterr ne)), b, c1)
    | None =>
        if (bd_left b >? max_body)%Z then (([], Some BTooLarge), b, c1)
        else if (len data >=? bd_left b)%Z
        then let n := Z.to_nat (bd_left b) in
             ((firstn n data, Some BEof), set_left 0 b, client_unread c1 (skipn n data))
        else ((data, None), set_left (bd_left b - len data) b, c1)
    end.

(* body.go:205-228  chunkedBodyReader.read; 230-232 adduint *)
Definition chunked_read (b : body) (c : client) : (bytes * option berr) * body * client :=
  let '((data, e), c1) := client_read c in
  match e with
  | Some ne => (([], Some (of_neterr ne)), b, c1)
  | None =>
      let '(cs', (chunk, extra, ce)) := cparse (bd_cs b) data (bd_trailer b) in
      match ce with
      | Some CErr => (([], Some BChunkErr), set_cs cs' b, c1)
      | _ =>
          let received := (bd_received b + len chunk)%Z in
          if (two64 - 1 - bd_received b <? len chunk)%Z || (received >? max_body)%Z
          then (([], Some BTooLarge), set_cs cs' b, c1)
          else ((chunk, match ce with None => None | Some _ => Some BEof end),
                set_received received (set_cs cs' b), client_unread c1 extra)
      end
  end.

(* body.go:100-119 with 136-140  Retrieve, checkEOF *)
Definition retrieve (b : body) (c : client) : (bytes * option berr) * body * client :=
  if bd_eof b then (([], Some BEof), b, c)
  else let '(r, b1, c1) := if bd_chunked b then chunked_read b c else plain_read b c in
       (r, if berr_eof (snd r) then set_eof true b1 else b1, c1).

(* The loops below run until an error; each round consumes a network event or pending bytes,
   so this bound is never the reason to stop (proved for every decoder that makes progress). *)
Definition net_size (net : list (bytes * option neterr)) : nat :=
  fold_right (fun ev n => S (List.length (fst ev) + n)) 0%nat net.
Definition loop_fuel (c : client) : nat := S (S (List.length (cl_pending c) + net_size (cl_net c))).

(* a finished accessor call *)
Inductive bres := BROk (d : bytes) | BRErr (e : berr) | BRPanic | BRStuck.

(* runtime.makeslice panics above this (linux/amd64: 1<<48); allocations below it that the
   machine cannot satisfy are fatal as well but not modelled *)
Definition max_alloc : Z := 281474976710656.

(* body.go:58-81  Bytes (String, 52-56, is the same data without a copy) *)
Fixpoint bytes_loop (fuel : nat) (b : body) (c : client) : bres * body * client :=
  match fuel with
  | O => (BRStuck, b, c)
  | S f =>
      let '((data, e), b1, c1) := retrieve b c in
      let full := bd_full b1 ++ data in
      let b2 := set_full full (Z.max (bd_cap b1) (len full)) b1 in
      match e with
      | None => bytes_loop f b2 c1
      | Some BEof => (BROk (bd_full b2), b2, c1)
      | Some er => (BRErr er, b2, c1)
      end
  end.
Definition body_bytes (b : body) (c : client) : bres * body * client :=
  if bd_eof b then (BROk (bd_full b), b, c)
  else
    let grow := negb (bd_chunked b) && (bd_cap b <? bd_clen b)%Z in
    if grow && (bd_clen b >? max_alloc)%Z then (BRPanic, b, c)
    else bytes_loop (loop_fuel c) (set_full [] (if grow then bd_clen b else bd_cap b) b) c.

(* body.go:83-98  Callback.  The callback is a function of what it has been given so far,
   returning false for an error of its own; the result lists the pieces it was called with,
   and Some BEof marks success here (Callback returned what the last call returned: nil),
   None an error of the callback. *)
Fixpoint callback_loop (fuel : nat) (cb : list bytes -> bool) (seen : list bytes) (b : body) (c : client)
  : list bytes * option (option berr) * body * client :=
  match fuel with
  | O => (seen, Some None, b, c)
  | S f =>
      let '((data, e), b1, c1) := retrieve b c in
      match e with
      | Some BEof => let seen' := seen ++ [data] in
                     (seen', if cb seen' then Some (Some BEof) else None, b1, c1)
      | Some er => (seen, Some (Some er), b1, c1)
      | None => let seen' := seen ++ [data] in
                if cb seen' then callback_loop f cb seen' b1 c1 else (seen', None, b1, c1)
      end
  end.
Definition body_callback (cb : list bytes -> bool) (b : body) (c : client) :=
  callback_loop (loop_fuel c) cb [] b c.

(* body.go:121-134  Discard *)
Fixpoint discard_loop (fuel : nat) (b : body) (c : client) : option (option berr) * body * client :=
  match fuel with
  | O => (None, b, c)
  | S f =>
      if bd_eof b then (Some None, b, c)
      else let '((_, e), b1, c1) := retrieve b c in
           match e with
           | None => discard_loop f b1 c1
           | Some BEof => (Some None, b1, c1)
           | Some er => (Some (Some er), b1, c1)
           end
  end.
(* result: None = did not return; Some None = nil; Some (Some e) = the error e *)
Definition body_discard (b : body) (c : client) := discard_loop (loop_fuel c) b c.

(* stash/reader.go:18-35  Read(p) with len(p) = n: the bytes copied and the error *)
Definition body_read (n : nat) (b : body) (c : client) : (bytes * option berr) * body * client :=
  let '(b1, c1) :=
    match bd_pending b, bd_error b with
    | [], None => let '((d, e), b', c') := retrieve b c in (set_stash d e b', c')
    | _, _ => (b, c)
    end in
  let out := firstn n (bd_pending b1) in
  let rest := skipn n (bd_pending b1) in
  let b2 := set_stash rest (bd_error b1) b1 in
  ((out, match rest with [] => bd_error b1 | _ => None end), b2, c1).

(* http/request.go:169-186  Request.Clear: discard the body, then reset the fields.  The
   request is left as it is when the discarding fails. *)
Definition request_clear_full (r : request) (b : body) (c : client) : option (option berr) * request * body * client :=
  let '(res, b1, c1) := body_discard b c in
  match res with
  | Some None => (res, request_clear r, b1, c1)
  | _ => (res, r, b1, c1)
  end.

(* What a handler can do with request.Body (http/body.go:8-27), as data: the accessors and
   their answers.  String is Bytes; the callback of Callback is a function of the pieces
   handed to it so far. *)
Inductive bop :=
| OBytes | ORetrieve | ORead (n : nat) | OCallback (cb : list bytes -> bool) | ODiscard.
Inductive bout :=
| RBytes (r : bres) | RPiece (d : bytes) (e : option berr)
| RCallback (pieces : list bytes) (r : option (option berr)) | RDiscard (r : option (option berr)).
Definition body_op (op : bop) (b : body) (c : client) : bout * body * client :=
  match op with
  | OBytes => let '(r, b', c') := body_bytes b c in (RBytes r, b', c')
  | ORetrieve => let '((d, e), b', c') := retrieve b c in (RPiece d e, b', c')
  | ORead n => let '((d, e), b', c') := body_read n b c in (RPiece d e, b', c')
  | OCallback cb => let '(ps, r, b', c') := body_callback cb b c in (RCallback ps r, b', c')
  | ODiscard => let '(r, b', c') := body_discard b c in (RDiscard r, b', c')
  end.
Fixpoint body_ops (ops : list bop) (b : body) (c : client) : list bout * body * client :=
  match ops with
  | [] => ([], b, c)
  | op :: ops' => let '(o, b1, c1) := body_op op b c in
                  let '(os, b2, c2) := body_ops ops' b1 c1 in (o :: os, b2, c2)
  end.
End Body.
Arguments bd_chunked {CS}. Arguments bd_clen {CS}. Arguments bd_full {CS}. Arguments bd_cap {CS}.
Arguments bd_eof {CS}. Arguments bd_left {CS}. Arguments bd_received {CS}. Arguments bd_trailer {CS}.
Arguments bd_cs {CS}. Arguments bd_pending {CS}. Arguments bd_error {CS}. Arguments Body {CS}.
Arguments new_body {CS}. Arguments body_init {CS}. Arguments set_left {CS}. Arguments set_received {CS}.
Arguments set_cs {CS}. Arguments set_eof {CS}. Arguments set_full {CS}. Arguments set_stash {CS}.
Arguments plain_read {CS}. Arguments chunked_read {CS}. Arguments retrieve {CS}.
Arguments bytes_loop {CS}. Arguments body_bytes {CS}. Arguments callback_loop {CS}.
Arguments body_callback {CS}. Arguments discard_loop {CS}. Arguments body_discard {CS}.
Arguments body_read {CS}. Arguments request_clear_full {CS}. Arguments body_op {CS}. Arguments body_ops {CS}.
