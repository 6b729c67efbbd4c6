(* internal/protocol/http1/suit.go once more, over the client and the body of M_Mem: the loop
   serving one connection, with the buffer its reads share.  Function by function as M_Suit. *)
From Verif Require Import M_Base M_Status M_Method M_Proto M_KeyValue M_Query M_Request M_Parser M_Client M_Body
  M_Response M_Serializer M_Suit M_Mem.

(* client.go:68-73  Write *)
Definition mc_write (m : mclient) (d : bytes) : bool * mclient :=
  let '(ok, c) := client_write (Client [] [] (mc_out m) (mc_wres m)) d in
  (ok, MClient (mc_net m) (mc_mem m) (mc_pending m) (cl_out c) (cl_wres c)).
(* serializer.go:86-122  Write, which uses nothing of the client but Write *)
Definition m_write_response (p : proto) (r : request) (f : fields) (s : serializer) (m : mclient)
  : wres * serializer * mclient :=
  let '(res, s', c, _) := write_response p r f s (Client [] [] (mc_out m) (mc_wres m)) in
  (res, s', MClient (mc_net m) (mc_mem m) (mc_pending m) (cl_out c) (cl_wres c)).

Section Suit.
Variable CS : Type.
Variable mparse : CS -> bytes -> bool -> CS * (slice * nat * option cerr).
Variable max_body : Z.
Variable cfg : hcfg.
Variable W : Type.
Variable on_request : W -> request -> hprog W.
Variable on_error : W -> request -> http_error -> hprog W.

Inductive mres :=
| MDone (resp : option fields) (w : W) (r : request) (b : mbody CS) (c : mclient)
| MPanic (r : request) (b : mbody CS) (c : mclient)
| MStuck.
(* M_Suit.run_handler: a handler looks at a slice it is given right away *)
Fixpoint m_run (h : hprog W) (r : request) (b : mbody CS) (c : mclient) : mres :=
  match h with
  | HRet resp w => MDone resp w r b c
  | HBody op k =>
      let '(o, b', c') := m_op mparse max_body op b c in
      match stops o with Some true => MPanic r b' c' | Some false => MStuck | None => m_run (k o) r b' c' end
  | HUpdate g k => m_run k (g r) b c
  | HHijack k =>
      let '(res, b', c') := m_discard_loop mparse max_body (m_fuel c) (mb_body b) c in
      match res with
      | None => MStuck
      | Some None => m_run (k None) (set_hijacked true r) (MBody b' (mb_held b)) c'
      | Some (Some e) => m_run (k (Some e)) r (MBody b' (mb_held b)) c'
      end
  | HConnRead k => let '((s, e), c') := mc_read c in m_run (k (sl_get (mc_mem c') s, e)) r b c'
  | HConnWrite d k => let '(ok, c') := mc_write c d in m_run (k ok) r b c'
  | HCrash => MPanic r b c
  | HTry p q k =>
      match m_run p r b c with
      | MDone resp w r' b' c' => m_run (k resp w) r' b' c'
      | MPanic r' b' c' =>
          match m_run q r' b' c' with
          | MDone resp w r2 b2 c2 => m_run (k resp w) r2 b2 c2
          | res => res
          end
      | MStuck => MStuck
      end
  | HLook k => m_run (k r) r b c
  end.

(* suit.go:15-21 *)
Record mconn := MConn {
  mk_parser : parser; mk_ser : serializer; mk_client : mclient; mk_body : mbody CS;
  mk_pre : fields; mk_world : W
}.
(* suit.go:23-51: a new connection; client.go:24-33: its buffer *)
Definition m_new_conn (url_max key_max val_max file_buff : Z) (defaults : list (bytes * bytes)) (enc : enc_token)
    (cs : CS) (net : list (bytes * option neterr)) (writes : list (option nat)) (buff : bytes) (w : W) : mconn :=
  MConn (new_parser url_max key_max val_max (set_env (Env None [] enc []) new_request))
        (new_serializer file_buff defaults) (MClient net buff sl_nil [] writes) (MBody (new_body cs) sl_nil) new_response w.
(* suit.go:70-74, 99-101, 106-108 *)
Definition m_close_with (e : ending) (st : mconn) : ending * mconn :=
  let r := p_req (mk_parser st) in
  match m_run (on_error (mk_world st) r ErrCloseConnection) r (mk_body st) (mk_client st) with
  | MDone _ w r' b c => (e, MConn (set_p_req r' (mk_parser st)) (mk_ser st) c b (mk_pre st) w)
  | MPanic _ _ _ => (EndPanic, st)
  | MStuck => (EndStuck, st)
  end.
(* http/request.go:169-186  Clear *)
Definition m_clear (r : request) (b : mbody CS) (c : mclient) : option (option berr) * request * mbody CS * mclient :=
  let '(res, b1, c1) := m_discard_loop mparse max_body (m_fuel c) (mb_body b) c in
  match res with
  | Some None => (res, request_clear r, MBody b1 (mb_held b), c1)
  | _ => (res, r, MBody b1 (mb_held b), c1)
  end.
(* suit.go:78-109; [extra] is a slice of what was read *)
Definition m_on_head (st : mconn) (extra : slice) : (ending * mconn) + mconn :=
  let r := p_req (mk_parser st) in
  let '(s, pre, version) :=
    if wants_switch r then
      match resp_header (B "Connection") [B "upgrade"] (set_code 101%N (mk_pre st)) with
      | Some f1 =>
          match resp_header (B "Upgrade") [trim_last (proto_string (r_proto r))] f1 with
          | Some f2 => (pre_write (r_proto r) f2 (mk_ser st), f2, r_upgrade r)
          | None => (mk_ser st, mk_pre st, r_upgrade r)
          end
      | None => (mk_ser st, mk_pre st, r_upgrade r)
      end
    else (mk_ser st, mk_pre st, r_proto r) in
  let c := mc_unread (mk_client st) extra in
  let b := mb_init (mk_body st) r in
  match m_run (on_request (mk_world st) r) r b c with
  | MPanic _ _ _ => inl (EndPanic, st)
  | MStuck => inl (EndStuck, st)
  | MDone resp w r' b' c' =>
      if r_hijacked r' then inl (EndHijack, MConn (set_p_req r' (mk_parser st)) s c' b' pre w)
      else
        let '(res, s', c'') := m_write_response version r' (not_nil resp) s c' in
        let st1 := MConn (set_p_req r' (mk_parser st)) s' c'' b' pre w in
        match res with
        | WPanic => inl (EndPanic, st1)
        | WStuck => inl (EndStuck, st1)
        | WClose | WNet => inl (m_close_with EndWrite st1)
        | WOk =>
            let '(res2, r2, b2, c2) := m_clear r' b' c'' in
            let st2 := MConn (set_p_req r2 (mk_parser st)) s' c2 b2 pre w in
            match res2 with
            | Some None => inr st2
            | Some (Some _) => inl (m_close_with EndClear st2)
            | None => inl (EndStuck, st2)
            end
        end
  end.
(* suit.go:110-115 *)
Definition m_on_bad_head (st : mconn) (e : http_error) : ending * mconn :=
  let r := p_req (mk_parser st) in
  match m_run (on_error (mk_world st) r e) r (mk_body st) (mk_client st) with
  | MPanic _ _ _ => (EndPanic, st)
  | MStuck => (EndStuck, st)
  | MDone resp w r' b c =>
      let '(res, s', c') := m_write_response (r_proto r') r' (not_nil resp) (mk_ser st) c in
      let st1 := MConn (set_p_req r' (mk_parser st)) s' c' b (mk_pre st) w in
      match res with
      | WPanic => (EndPanic, st1)
      | WStuck => (EndStuck, st1)
      | _ => (EndParse, st1)
      end
  end.
(* suit.go:57-125  serve.  The parser copies what it keeps into buffers of its own; what it
   returns as extra is the end of the data it was given (parser.go:197, 376). *)
Fixpoint m_serve (fuel : nat) (st : mconn) : ending * mconn :=
  match fuel with
  | O => (EndStuck, st)
  | S n =>
      let '((data, e), c1) := mc_read (mk_client st) in
      let st := MConn (mk_parser st) (mk_ser st) c1 (mk_body st) (mk_pre st) (mk_world st) in
      let with_parser p := MConn p (mk_ser st) (mk_client st) (mk_body st) (mk_pre st) (mk_world st) in
      match e with
      | Some _ => m_close_with EndRead st
      | None =>
          match parse cfg (mk_parser st) (sl_get (mc_mem c1) data) with
          | RPending p => m_serve n (with_parser p)
          | RDone p extra =>
              match m_on_head (with_parser p) (sl_from (sl_len data - List.length extra) data) with
              | inl fin => fin
              | inr st' => m_serve n st'
              end
          | RErr p err => m_on_bad_head (with_parser p) err
          | RPanic => (EndPanic, st)
          | RStuck => (EndStuck, st)
          end
      end
  end.
End Suit.
Arguments MDone {CS W}. Arguments MPanic {CS W}. Arguments MStuck {CS W}. Arguments m_run {CS} mparse max_body {W}.
Arguments MConn {CS W}. Arguments mk_parser {CS W}. Arguments mk_ser {CS W}. Arguments mk_client {CS W}. Arguments mk_body {CS W}.
Arguments mk_pre {CS W}. Arguments mk_world {CS W}. Arguments m_new_conn {CS W}. Arguments m_close_with {CS} mparse max_body {W}. Arguments m_clear {CS} mparse max_body.
Arguments m_on_head {CS} mparse max_body {W}. Arguments m_on_bad_head {CS} mparse max_body {W}. Arguments m_serve {CS} mparse max_body cfg {W}.
