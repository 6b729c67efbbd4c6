(* internal/tcp/client.go, internal/protocol/http1/body.go, internal/stash/reader.go once more,
   with the memory they share: the connection has one buffer, every read of it fills this buffer
   anew, and what is handed out, pushed back or held back are slices of it.  M_Client and M_Body
   treat slices as values; P_Mem says when that is right. *)
From Verif Require Import M_Base M_Status M_Proto M_KeyValue M_Query M_Request M_Client M_Body.

(* a slice of the buffer: where it begins and how long it is (its capacity plays no role) *)
Record slice := Sl { sl_off : nat; sl_len : nat }.
Definition sl_nil : slice := Sl 0 0.
(* the bytes it shows while the memory is m *)
Definition sl_get (m : bytes) (s : slice) : bytes := firstn (sl_len s) (skipn (sl_off s) m).
(* s[n:] and s[:n], n <= len(s) *)
Definition sl_from (n : nat) (s : slice) : slice := Sl (sl_off s + n) (sl_len s - n).
Definition sl_upto (n : nat) (s : slice) : slice := Sl (sl_off s) n.
(* a slice of the slice s, given relative to it *)
Definition sl_sub (s t : slice) : slice := Sl (sl_off s + sl_off t) (sl_len t).

(* client.go:17-22: what the reads of the connection will return, the buffer, the slice pending;
   what was written and what the next writes will answer, as in M_Client *)
Record mclient := MClient { mc_net : list (bytes * option neterr); mc_mem : bytes; mc_pending : slice;
                            mc_out : list bytes; mc_wres : list (option nat) }.
(* client.go:35-50  Read.  conn.Read(buff) writes to the beginning of buff. *)
Definition mc_read (c : mclient) : (slice * option neterr) * mclient :=
  if Nat.ltb 0 (sl_len (mc_pending c)) then ((mc_pending c, None), MClient (mc_net c) (mc_mem c) sl_nil (mc_out c) (mc_wres c))
  else match mc_net c with
       | [] => ((sl_nil, Some NOther), c)
       | (d, e) :: net => ((Sl 0 (List.length d), e), MClient net (d ++ skipn (List.length d) (mc_mem c)) (mc_pending c) (mc_out c) (mc_wres c))
       end.
(* client.go:57-61  Unread *)
Definition mc_unread (c : mclient) (s : slice) : mclient := MClient (mc_net c) (mc_mem c) s (mc_out c) (mc_wres c).

Section Mem.
Variable CS : Type.
(* chunkedbody.Parser.Parse returns slices of the data it is given: the chunk, and what follows *)
Variable mparse : CS -> bytes -> bool -> CS * (slice * nat * option cerr).
Variable max_body : Z.

(* body.go:17-25: the fields of M_Body, but the pending bytes of the stash reader are a slice
   (bd_pending of mb_body is not used).  fullBodyBuff is memory of its own. *)
Record mbody := MBody { mb_body : body CS; mb_held : slice }.
Definition mb_init (b : mbody) (r : request) : mbody := MBody (body_init (mb_body b) r) sl_nil.

(* body.go:158-183 *)
Definition m_plain_read (b : body CS) (c : mclient) : (slice * option berr) * body CS * mclient :=
  if (bd_left b =? 0)%Z then ((sl_nil, Some BEof), b, c)
  else
    let '((data, e), c1) := mc_read c in
    match e with
    | Some ne => ((sl_nil, Some (of_neterr ne)), b, c1)
    | None =>
        if (bd_left b >? max_body)%Z then ((sl_nil, Some BTooLarge), b, c1)
        else if (Z.of_nat (sl_len data) >=? bd_left b)%Z
        then let n := Z.to_nat (bd_left b) in
             ((sl_upto n data, Some BEof), set_left 0 b, mc_unread c1 (sl_from n data))
        else ((data, None), set_left (bd_left b - Z.of_nat (sl_len data)) b, c1)
    end.
(* body.go:205-228 *)
Definition m_chunked_read (b : body CS) (c : mclient) : (slice * option berr) * body CS * mclient :=
  let '((data, e), c1) := mc_read c in
  match e with
  | Some ne => ((sl_nil, Some (of_neterr ne)), b, c1)
  | None =>
      let '(cs', (chunk, extra, ce)) := mparse (bd_cs b) (sl_get (mc_mem c1) data) (bd_trailer b) in
      match ce with
      | Some CErr => ((sl_nil, Some BChunkErr), set_cs cs' b, c1)
      | _ =>
          let received := (bd_received b + Z.of_nat (sl_len chunk))%Z in
          if (two64 - 1 - bd_received b <? Z.of_nat (sl_len chunk))%Z || (received >? max_body)%Z
          then ((sl_nil, Some BTooLarge), set_cs cs' b, c1)
          else ((sl_sub data chunk, match ce with None => None | Some _ => Some BEof end),
                set_received received (set_cs cs' b), mc_unread c1 (sl_from extra data))
      end
  end.
(* body.go:100-119 *)
Definition m_retrieve (b : body CS) (c : mclient) : (slice * option berr) * body CS * mclient :=
  if bd_eof b then ((sl_nil, Some BEof), b, c)
  else let '(r, b1, c1) := if bd_chunked b then m_chunked_read b c else m_plain_read b c in
       (r, if berr_eof (snd r) then set_eof true b1 else b1, c1).
Definition m_fuel (c : mclient) : nat := S (S (sl_len (mc_pending c) + net_size (mc_net c))).

(* body.go:58-81: append copies *)
Fixpoint m_bytes_loop (fuel : nat) (b : body CS) (c : mclient) : bres * body CS * mclient :=
  match fuel with
  | O => (BRStuck, b, c)
  | S f =>
      let '((data, e), b1, c1) := m_retrieve b c in
      let full := bd_full b1 ++ sl_get (mc_mem c1) data in
      let b2 := set_full full (Z.max (bd_cap b1) (len full)) b1 in
      match e with
      | None => m_bytes_loop f b2 c1
      | Some BEof => (BROk (bd_full b2), b2, c1)
      | Some er => (BRErr er, b2, c1)
      end
  end.
Definition m_bytes (b : body CS) (c : mclient) : bres * body CS * mclient :=
  if bd_eof b then (BROk (bd_full b), b, c)
  else
    let grow := negb (bd_chunked b) && (bd_cap b <? bd_clen b)%Z in
    if grow && (bd_clen b >? max_alloc)%Z then (BRPanic, b, c)
    else m_bytes_loop (m_fuel c) (set_full [] (if grow then bd_clen b else bd_cap b) b) c.
(* body.go:83-98: the callback looks at the slice when it is called *)
Fixpoint m_callback_loop (fuel : nat) (cb : list bytes -> bool) (seen : list bytes) (b : body CS) (c : mclient)
  : list bytes * option (option berr) * body CS * mclient :=
  match fuel with
  | O => (seen, Some None, b, c)
  | S f =>
      let '((data, e), b1, c1) := m_retrieve b c in
      match e with
      | Some BEof => let seen' := seen ++ [sl_get (mc_mem c1) data] in
                     (seen', if cb seen' then Some (Some BEof) else None, b1, c1)
      | Some er => (seen, Some (Some er), b1, c1)
      | None => let seen' := seen ++ [sl_get (mc_mem c1) data] in
                if cb seen' then m_callback_loop f cb seen' b1 c1 else (seen', None, b1, c1)
      end
  end.
(* body.go:121-134 *)
Fixpoint m_discard_loop (fuel : nat) (b : body CS) (c : mclient) : option (option berr) * body CS * mclient :=
  match fuel with
  | O => (None, b, c)
  | S f =>
      if bd_eof b then (Some None, b, c)
      else let '((_, e), b1, c1) := m_retrieve b c in
           match e with
           | None => m_discard_loop f b1 c1
           | Some BEof => (Some None, b1, c1)
           | Some er => (Some (Some er), b1, c1)
           end
  end.
(* stash/reader.go:18-35: what is copied is what the slice shows now *)
Definition m_read (n : nat) (b : mbody) (c : mclient) : (bytes * option berr) * mbody * mclient :=
  let '(b1, held, c1) :=
    if Nat.eqb (sl_len (mb_held b)) 0 && match bd_error (mb_body b) with None => true | _ => false end
    then let '((d, e), b', c') := m_retrieve (mb_body b) c in (set_stash [] e b', d, c')
    else (mb_body b, mb_held b, c) in
  let out := firstn n (sl_get (mc_mem c1) held) in
  let rest := sl_from (List.length out) held in
  ((out, if Nat.eqb (sl_len rest) 0 then bd_error b1 else None), MBody b1 rest, c1).

(* an accessor called by a handler; what it answers is looked at right away *)
Definition m_op (op : bop) (b : mbody) (c : mclient) : bout * mbody * mclient :=
  match op with
  | OBytes => let '(r, b', c') := m_bytes (mb_body b) c in (RBytes r, MBody b' (mb_held b), c')
  | ORetrieve => let '((d, e), b', c') := m_retrieve (mb_body b) c in (RPiece (sl_get (mc_mem c') d) e, MBody b' (mb_held b), c')
  | ORead n => let '((d, e), b', c') := m_read n b c in (RPiece d e, b', c')
  | OCallback cb => let '(ps, r, b', c') := m_callback_loop (m_fuel c) cb [] (mb_body b) c in (RCallback ps r, MBody b' (mb_held b), c')
  | ODiscard => let '(r, b', c') := m_discard_loop (m_fuel c) (mb_body b) c in (RDiscard r, MBody b' (mb_held b), c')
  end.
Fixpoint m_ops (ops : list bop) (b : mbody) (c : mclient) : list bout * mbody * mclient :=
  match ops with
  | [] => ([], b, c)
  | op :: ops' => let '(o, b1, c1) := m_op op b c in
                  let '(os, b2, c2) := m_ops ops' b1 c1 in (o :: os, b2, c2)
  end.
End Mem.
Arguments MBody {CS}. Arguments mb_body {CS}. Arguments mb_held {CS}. Arguments mb_init {CS}.
Arguments m_plain_read {CS}. Arguments m_chunked_read {CS}. Arguments m_retrieve {CS}. Arguments m_bytes_loop {CS}. Arguments m_bytes {CS}.
Arguments m_callback_loop {CS}. Arguments m_discard_loop {CS}. Arguments m_read {CS}. Arguments m_op {CS}. Arguments m_ops {CS}.
