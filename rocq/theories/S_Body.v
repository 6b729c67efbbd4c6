(* Specification vocabulary for connections and request bodies. *)
From Verif Require Import M_Base M_Status M_Proto M_KeyValue M_Query M_Request M_Client M_Body.

(* The bytes still to come from the connection: pushed-back ones first, then what the network
   delivers up to the first failing read. *)
Fixpoint net_data (net : list (bytes * option neterr)) : bytes :=
  match net with
  | (d, None) :: net' => d ++ net_data net'
  | _ => []
  end.
Definition stream (c : client) : bytes := cl_pending c ++ net_data (cl_net c).

(* [Delivers more text outs left]: the answers [outs] of consecutive reading calls hand out
   [text] from its beginning; [left] is what remains.  An answer reports the end exactly when
   nothing remains, or (when [more] is True of []) some answers after the last byte may still
   announce nothing. *)
Fixpoint Delivers (more : bytes -> Prop) (text : bytes) (outs : list (bytes * option berr)) (left : bytes) : Prop :=
  match outs with
  | [] => left = text
  | (d, e) :: outs' =>
      exists text', text = d ++ text' /\
        ((e = None /\ more text') \/ (e = Some BEof /\ text' = [])) /\
        Delivers more text' outs' left
  end.
(* fixed-length bodies: the end is reported with the last byte *)
Definition not_done (t : bytes) : Prop := t <> [].
Definition any_text (t : bytes) : Prop := True.

(* What the external chunk decoder is relied upon to do.  [encoded tr w d]: w is the chunked
   form (with trailers if tr) of the data d.  [fresh s]: the decoder waits for a new body;
   [inside s tr w d]: it is in the middle of a body of which w, meaning d, is still to come. *)
Record DecoderOk (CS : Type) (cparse : CS -> bytes -> bool -> CS * (bytes * bytes * option cerr))
    (encoded : bool -> bytes -> bytes -> Prop) (fresh : CS -> Prop)
    (inside : CS -> bool -> bytes -> bytes -> Prop) : Prop := {
  dk_start : forall s tr w d, fresh s -> encoded tr w d -> inside s tr w d;
  dk_nonempty : forall tr w d, encoded tr w d -> w <> [];
  dk_step : forall s tr w d data more tail, inside s tr w d -> data ++ more = w ++ tail ->
    exists s' chunk extra e, cparse s data tr = (s', (chunk, extra, e)) /\
      ((e = None /\ exists used w' d', data = used ++ extra /\ w = used ++ w' /\ w' <> [] /\
          d = chunk ++ d' /\ (used <> [] \/ data = []) /\ inside s' tr w' d') \/
       (e = Some CEof /\ data = w ++ extra /\ d = chunk /\ fresh s'))
}.

(* a piece of a text *)
Definition piece_of (text d : bytes) : Prop := exists a z, text = a ++ d ++ z.

(* the data an answer hands to the handler *)
Definition out_data (o : bout) : bytes :=
  match o with
  | RBytes (BROk d) => d
  | RBytes _ => []
  | RPiece d _ => d
  | RCallback ps _ => concat ps
  | RDiscard _ => []
  end.
(* answers of Retrieve / Read as pairs *)
Definition as_piece (o : bout) : bytes * option berr :=
  match o with RPiece d e => (d, e) | _ => ([], None) end.

(* The way the server takes bytes from a connection: read, use the first k bytes, push the
   rest back.  Result: all bytes used, whether no read failed, the connection afterwards. *)
Fixpoint consume (ks : list nat) (c : client) : bytes * bool * client :=
  match ks with
  | [] => ([], true, c)
  | k :: ks' =>
      match client_read c with
      | ((d, None), c1) =>
          let '(u, ok, c2) := consume ks' (client_unread c1 (skipn k d)) in (firstn k d ++ u, ok, c2)
      | ((_, Some _), c1) => ([], false, c1)
      end
  end.

(* how much data the answers of the piecewise accessors hand out together *)
Definition is_bytes (op : bop) : bool := match op with OBytes => true | _ => false end.
Definition streamed (outs : list bout) : Z :=
  fold_right (fun o n => (match o with RBytes _ => 0 | _ => len (out_data o) end + n)%Z) 0%Z outs.

(* Bytes is not the first whole-body access after the end was reached by other means *)
Fixpoint NoStaleBytes {CS} (cparse : CS -> bytes -> bool -> CS * (bytes * bytes * option cerr)) (max : Z)
    (asked : bool) (ops : list bop) (b : body CS) (c : client) : Prop :=
  match ops with
  | [] => True
  | op :: ops' =>
      (op = OBytes -> asked = true \/ bd_eof b = false) /\
      let '(_, b1, c1) := body_op cparse max op b c in
      NoStaleBytes cparse max (asked || is_bytes op) ops' b1 c1
  end.

(* What a handler can see of a request. *)
Record SameView (a b : request) : Prop := {
  sv_method : r_method a = r_method b;
  sv_path : r_path a = r_path b;
  sv_proto : r_proto a = r_proto b;
  sv_raw : q_raw (r_query a) = q_raw (r_query b);
  sv_parsed : q_parsed (r_query a) = q_parsed (r_query b);
  sv_query : kv_pairs (q_params (r_query a)) = kv_pairs (q_params (r_query b));
  sv_params : kv_pairs (r_params a) = kv_pairs (r_params b);
  sv_headers : kv_pairs (r_headers a) = kv_pairs (r_headers b);
  sv_encoding : r_encoding a = r_encoding b;
  sv_clen : r_content_length a = r_content_length b;
  sv_ctype : r_content_type a = r_content_type b;
  sv_conn : r_connection a = r_connection b;
  sv_upgrade : r_upgrade a = r_upgrade b;
  sv_ctx : r_ctx a = r_ctx b;
  sv_error : env_error (r_env a) = env_error (r_env b);
  sv_allowed : env_allowed (r_env a) = env_allowed (r_env b);
  sv_alias : env_alias_from (r_env a) = env_alias_from (r_env b)
}.
(* Parameters are only there once the query has been parsed. *)
Definition QueryFresh (q : query) : Prop := q_parsed q = false -> kv_pairs (q_params q) = [].

(* a request with a fixed-length body [text] that is allowed *)
Definition FixedRequest (max : Z) (r : request) (text : bytes) : Prop :=
  enc_chunked (r_encoding r) = false /\ r_content_length r = len text /\
  (len text <= max)%Z /\ (len text <= max_alloc)%Z.
(* a chunked request whose body is sent as [w] and means [text] *)
Definition ChunkedRequest (encoded : bool -> bytes -> bytes -> Prop) (max : Z) (r : request) (w text : bytes) : Prop :=
  enc_chunked (r_encoding r) = true /\ encoded (enc_trailer (r_encoding r)) w text /\
  (len text <= max)%Z /\ (max < two64)%Z.

(* What all accessors do with a body [text] that is followed by [rest] on the connection:
   [b] is the body after Init, [c] the connection. *)
Record AccessorsDeliver {CS} (cparse : CS -> bytes -> bool -> CS * (bytes * bytes * option cerr)) (max : Z)
    (more : bytes -> Prop) (text rest : bytes) (b : body CS) (c : client) : Prop := {
  (* the whole body at once; asking again gives it again *)
  ad_bytes : exists b' c', body_bytes cparse max b c = (BROk text, b', c') /\ stream c' = rest /\
    body_bytes cparse max b' c' = (BROk text, b', c');
  (* pieces until the callback refuses: all of it, or what came before *)
  ad_callback : forall cb, exists ps res b' c', body_callback cparse max cb b c = (ps, res, b', c') /\
    ((res = Some (Some BEof) /\ concat ps = text /\ stream c' = rest) \/
     (res = None /\ cb ps = false /\ exists left, text = concat ps ++ left)) /\
    ((forall seen, cb seen = true) -> res = Some (Some BEof));
  (* pieces on demand, any number of calls; enough calls reach the end *)
  ad_retrieve : forall k, exists outs b' c' left,
    body_ops cparse max (repeat ORetrieve k) b c = (outs, b', c') /\
    Delivers more text (map as_piece outs) left /\
    ((List.length (cl_pending c) + net_size (cl_net c) < k)%nat -> left = [] /\ stream c' = rest);
  (* io.Reader with any buffer sizes *)
  ad_read : forall ns, exists outs b' c' left,
    body_ops cparse max (map ORead ns) b c = (outs, b', c') /\ Delivers more text (map as_piece outs) left /\
    (Forall (fun n => 0 < n)%nat ns ->
     (List.length text + S (List.length (cl_pending c) + net_size (cl_net c)) < List.length ns)%nat ->
     left = [] /\ stream c' = rest);
  (* whatever was read before, in whatever way, discarding ends with the next request's bytes *)
  ad_discard : forall ops os b1 c1, body_ops cparse max ops b c = (os, b1, c1) ->
    exists b' c', body_discard cparse max b1 c1 = (Some None, b', c') /\ stream c' = rest
}.
