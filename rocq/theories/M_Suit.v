(* internal/protocol/http1/suit.go: the loop serving one connection. *)
From Verif Require Import M_Base M_Status M_Method M_Proto M_KeyValue M_Query M_Request M_Parser M_Client M_Body
  M_Response M_Serializer.

(* What runs on behalf of the application: a handler with its middlewares, or an error
   handler.  It may use the body accessors, change the request object, take over the
   connection, and finally returns a response (None: nil) and a new state of the application
   (W: everything handlers share).  HConnRead and HConnWrite use the client returned by
   Request.Hijack.  HCrash: the handler panics itself.  HTry p q k: p runs under a deferred
   recover; if it panics q runs, and then k with what p or q returned (changes p made to W
   are lost then).  HLook: the request object as it is now.  Responses are values here: a handler that keeps and re-uses a Response
   object has to do so through W. *)
Inductive hprog (W : Type) :=
| HRet (resp : option fields) (w : W)
| HBody (op : bop) (k : bout -> hprog W)
| HUpdate (g : request -> request) (k : hprog W)
| HHijack (k : option berr -> hprog W)
| HConnRead (k : bytes * option neterr -> hprog W)
| HConnWrite (d : bytes) (k : bool -> hprog W)
| HCrash
| HTry (p q : hprog W) (k : option fields -> W -> hprog W)
| HLook (k : request -> hprog W).
Arguments HRet {W}. Arguments HBody {W}. Arguments HUpdate {W}. Arguments HHijack {W}.
Arguments HConnRead {W}. Arguments HConnWrite {W}. Arguments HCrash {W}. Arguments HTry {W}. Arguments HLook {W}.

Section Suit.
Variable CS : Type.
Variable cparse : CS -> bytes -> bool -> CS * (bytes * bytes * option cerr).
Variable max_body : Z.
Variable cfg : hcfg.
Variable W : Type.
(* router/router.go:13-16 *)
Variable on_request : W -> request -> hprog W.
Variable on_error : W -> request -> http_error -> hprog W.

(* the outcome of a handler: it returned, panicked, or never returns *)
Inductive hres :=
| HDone (resp : option fields) (w : W) (r : request) (b : body CS) (c : client)
| HPanic (r : request) (b : body CS) (c : client)
| HStuck.
(* a body accessor that panics (true) or never returns (false) *)
Definition stops (o : bout) : option bool :=
  match o with
  | RBytes BRPanic => Some true
  | RBytes BRStuck | RCallback _ (Some None) | RDiscard None => Some false
  | _ => None
  end.
(* Hijack is http/request.go:149-160 *)
Fixpoint run_handler (h : hprog W) (r : request) (b : body CS) (c : client) : hres :=
  match h with
  | HRet resp w => HDone resp w r b c
  | HBody op k =>
      let '(o, b', c') := body_op cparse max_body op b c in
      match stops o with Some true => HPanic r b' c' | Some false => HStuck | None => run_handler (k o) r b' c' end
  | HUpdate g k => run_handler k (g r) b c
  | HHijack k =>
      let '(res, b', c') := body_discard cparse max_body b c in
      match res with
      | None => HStuck
      | Some None => run_handler (k None) (set_hijacked true r) b' c'
      | Some (Some e) => run_handler (k (Some e)) r b' c'
      end
  | HConnRead k => let '(x, c') := client_read c in run_handler (k x) r b c'
  | HConnWrite d k => let '(ok, c') := client_write c d in run_handler (k ok) r b c'
  | HCrash => HPanic r b c
  | HTry p q k =>
      match run_handler p r b c with
      | HDone resp w r' b' c' => run_handler (k resp w) r' b' c'
      | HPanic r' b' c' =>
          match run_handler q r' b' c' with
          | HDone resp w r2 b2 c2 => run_handler (k resp w) r2 b2 c2
          | res => res
          end
      | HStuck => HStuck
      end
  | HLook k => run_handler (k r) r b c
  end.

(* suit.go:15-21 with the objects its fields point to; the request is in the parser *)
Record conn := Conn {
  k_parser : parser; k_ser : serializer; k_client : client; k_body : body CS;
  k_pre : fields; k_world : W
}.
(* suit.go:23-51 with http/serve/http1.go:14-21: a new connection *)
Definition new_conn (url_max key_max val_max file_buff : Z) (defaults : list (bytes * bytes)) (enc : enc_token)
    (cs : CS) (c : client) (w : W) : conn :=
  Conn (new_parser url_max key_max val_max (set_env (Env None [] enc []) new_request))
       (new_serializer file_buff defaults) c (new_body cs) new_response w.

Inductive ending := EndRead | EndHijack | EndWrite | EndClear | EndParse | EndPanic | EndStuck.

(* suit.go:135-141  trimLast *)
Definition trim_last (s : bytes) : bytes := drop_last s.
(* suit.go:127-133  notNil *)
Definition not_nil (resp : option fields) : fields := match resp with Some f => f | None => new_response end.

(* suit.go:67-72, 99-104, 106-110: OnError(ErrCloseConnection), the response is not used *)
Definition close_with (e : ending) (st : conn) : ending * conn :=
  let r := p_req (k_parser st) in
  match run_handler (on_error (k_world st) r ErrCloseConnection) r (k_body st) (k_client st) with
  | HDone _ w r' b c => (e, Conn (set_p_req r' (k_parser st)) (k_ser st) c b (k_pre st) w)
  | HPanic _ _ _ => (EndPanic, st)
  | HStuck => (EndStuck, st)
  end.

(* suit.go:79 *)
Definition wants_switch (r : request) : bool :=
  match r_upgrade r with HTTP10 | HTTP11 => true | _ => false end.

(* suit.go:77-110: a request head is complete.  [st] already has the parser and the client
   after the head; [extra] is what was read behind it.  inr: go on with the next request. *)
Definition on_head (st : conn) (extra : bytes) : (ending * conn) + conn :=
  let r := p_req (k_parser st) in
  let '(s, pre, version) :=
    if wants_switch r then
      match resp_header (B "Connection") [B "upgrade"] (set_code 101%N (k_pre st)) with
      | Some f1 =>
          match resp_header (B "Upgrade") [trim_last (proto_string (r_proto r))] f1 with
          | Some f2 => (pre_write (r_proto r) f2 (k_ser st), f2, r_upgrade r)
          | None => (k_ser st, k_pre st, r_upgrade r)      (* not reached *)
          end
      | None => (k_ser st, k_pre st, r_upgrade r)          (* not reached *)
      end
    else (k_ser st, k_pre st, r_proto r) in
  let c := client_unread (k_client st) extra in
  let b := body_init (k_body st) r in
  match run_handler (on_request (k_world st) r) r b c with
  | HPanic _ _ _ => inl (EndPanic, st)
  | HStuck => inl (EndStuck, st)
  | HDone resp w r' b' c' =>
      if r_hijacked r' then inl (EndHijack, Conn (set_p_req r' (k_parser st)) s c' b' pre w)
      else
        let '(res, s', c'', _) := write_response version r' (not_nil resp) s c' in
        let st1 := Conn (set_p_req r' (k_parser st)) s' c'' b' pre w in
        match res with
        | WPanic => inl (EndPanic, st1)
        | WStuck => inl (EndStuck, st1)
        | WClose | WNet => inl (close_with EndWrite st1)
        | WOk =>
            let '(res2, r2, b2, c2) := request_clear_full cparse max_body r' b' c'' in
            let st2 := Conn (set_p_req r2 (k_parser st)) s' c2 b2 pre w in
            match res2 with
            | Some None => inr st2
            | Some (Some _) => inl (close_with EndClear st2)
            | None => inl (EndStuck, st2)
            end
        end
  end.

(* suit.go:111-116: the head is malformed *)
Definition on_bad_head (st : conn) (e : http_error) : ending * conn :=
  let r := p_req (k_parser st) in
  match run_handler (on_error (k_world st) r e) r (k_body st) (k_client st) with
  | HPanic _ _ _ => (EndPanic, st)
  | HStuck => (EndStuck, st)
  | HDone resp w r' b c =>
      let '(res, s', c', _) := write_response (r_proto r') r' (not_nil resp) (k_ser st) c in
      let st1 := Conn (set_p_req r' (k_parser st)) s' c' b (k_pre st) w in
      match res with
      | WPanic => (EndPanic, st1)
      | WStuck => (EndStuck, st1)
      | _ => (EndParse, st1)
      end
  end.

Definition set_k_client c (st : conn) := Conn (k_parser st) (k_ser st) c (k_body st) (k_pre st) (k_world st).
Definition set_k_parser p (st : conn) := Conn p (k_ser st) (k_client st) (k_body st) (k_pre st) (k_world st).

(* suit.go:57-125  serve, with once = false.  [fuel] bounds the rounds of the loop. *)
Fixpoint serve (fuel : nat) (st : conn) : ending * conn :=
  match fuel with
  | O => (EndStuck, st)
  | S n =>
      let '((data, e), c1) := client_read (k_client st) in
      let st := set_k_client c1 st in
      match e with
      | Some _ => close_with EndRead st
      | None =>
          match parse cfg (k_parser st) data with
          | RPending p => serve n (set_k_parser p st)
          | RDone p extra =>
              match on_head (set_k_parser p st) extra with
              | inl fin => fin
              | inr st' => serve n st'
              end
          | RErr p err => on_bad_head (set_k_parser p st) err
          | RPanic => (EndPanic, st)
          | RStuck => (EndStuck, st)
          end
      end
  end.
End Suit.
Arguments Conn {CS W}. Arguments k_parser {CS W}. Arguments k_ser {CS W}. Arguments k_client {CS W}.
Arguments k_body {CS W}. Arguments k_pre {CS W}. Arguments k_world {CS W}.
Arguments HDone {CS W}. Arguments HPanic {CS W}. Arguments HStuck {CS W}. 
Arguments run_handler {CS} cparse max_body {W}. Arguments new_conn {CS W}. Arguments close_with {CS} cparse max_body {W}.
Arguments on_head {CS} cparse max_body {W}. Arguments on_bad_head {CS} cparse max_body {W}. Arguments serve {CS} cparse max_body cfg {W}.
Arguments set_k_client {CS W}. Arguments set_k_parser {CS W}.
