(* Specification: what a stream means to the parser must not depend on how it arrives. *)
From Verif Require Import M_Base M_Status M_Request M_Parser S_Head.

(* the bytes that are kept while the request line is read: up to the first LF behind the first
   space, or everything; the space behind the method is not kept *)
Definition line_part (t : bytes) : bytes := match cut t LF with Some (l, _) => l | None => t end.
Definition start_part (t : bytes) : bytes :=
  match cut t SP with Some (m, r) => m ++ line_part r | None => t end.
(* header lines whose names have neither CR nor LF: every line has a colon before its end.
   The stream may end anywhere. *)
Definition plain_name (n : bytes) : Prop := ~ In CR n /\ ~ In LF n /\ ~ In x3a n.
Inductive NamedLines : bytes -> Prop :=      (* at the beginning of a line *)
| Nl_lf : forall t, NamedLines (LF :: t)
| Nl_cr : forall t, NamedLines (CR :: t)
| Nl_name : forall t, MidName t -> NamedLines t
with MidName : bytes -> Prop :=              (* within a name *)
| Mn_end : forall n, plain_name n -> MidName n
| Mn_colon : forall n t, plain_name n -> MidLine t -> MidName (n ++ x3a :: t)
with MidLine : bytes -> Prop :=              (* anywhere else in a line *)
| Ml_end : forall v, ~ In LF v -> MidLine v
| Ml_line : forall v t, ~ In LF v -> NamedLines t -> MidLine (v ++ LF :: t).
(* ... of a whole request *)
Definition NamedHead (t : bytes) : Prop := forall m r, cut t SP = Some (m, r) -> MidLine r.

(* the same outcome: what is reported, the request, and the bytes behind it *)
Definition SameOutcome (x y : pres * list bytes) : Prop :=
  match fst x, fst y with
  | RPending p, RPending q => p_req p = p_req q
  | RDone p e, RDone q e' => p = q /\ e ++ concat (snd x) = e' ++ concat (snd y)
  | RErr p e, RErr q e' => e = e' /\ p_req p = p_req q
  | RPanic, RPanic => True
  | _, _ => False
  end.

(* ---- request lines that are refused, and how: m is what stands before the first space, l
   what stands between it and the next LF ---- *)
Definition method_names : list bytes :=
  [B "GET"; B "HEAD"; B "POST"; B "PUT"; B "DELETE"; B "CONNECT"; B "OPTIONS"; B "TRACE"; B "PATCH"].
(* the path part of a request target *)
Definition path_part (target : bytes) : bytes := match cut target x3f with Some (a, _) => a | None => target end.
(* a version token, as far as the server looks at it; any byte may separate the numbers *)
Definition version_token (v : bytes) : Prop :=
  exists c, v = B "HTTP/1" ++ [c; x30] \/ v = B "HTTP/1" ++ [c; x31] \/ v = B "HTTP/2" ++ [c; x30].
(* the version as it stands in the line: without the CR of a CR LF *)
Definition bare (v : bytes) : bytes := match rev v with x0d :: r => rev r | _ => v end.
Inductive LineRefused : bytes -> bytes -> http_error -> Prop :=
| Lr_no_method : forall l, LineRefused [] l ErrBadRequest
| Lr_method : forall m l, m <> [] -> ~ In m method_names -> LineRefused m l ErrMethodNotImplemented
| Lr_no_version : forall m l, In m method_names -> ~ In SP l -> LineRefused m l ErrBadRequest
| Lr_no_path : forall m target v, In m method_names -> v <> [] -> ~ In SP v -> path_part target = [] ->
    LineRefused m (target ++ SP :: v) ErrBadRequest
| Lr_escape : forall m target v a d t, In m method_names -> v <> [] -> ~ In SP v -> path_part target = a ++ x25 :: t ->
    LooselyDecodes a d -> (List.length t < 2)%nat -> LineRefused m (target ++ SP :: v) ErrURIDecoding
| Lr_version : forall m target v d, In m method_names -> v <> [] -> ~ In SP v -> path_part target <> [] ->
    LooselyDecodes (path_part target) d -> ~ version_token (bare v) ->
    LineRefused m (target ++ SP :: v) ErrUnsupportedProtocol.

(* ---- heads that are too large ---- *)
(* everything but the request line is within the limits *)
Definition headers_fit (lim : limits) (h : head) : Prop :=
  (Z.of_nat (List.length (h_lines h)) <= lim_headers lim)%Z /\
  (keys_size (h_lines h) <= lim_keys lim)%Z /\
  (values_size (h_lines h) <= lim_values lim)%Z /\
  Forall (fun l => is_content_length l = false -> (len (raw_value l) <= lim_value lim)%Z) (h_lines h).
(* the request line is *)
Definition line_fits (lim : limits) (h : head) : Prop :=
  (len (method_token (h_method h)) + len (target h) + 1 + len (proto_token (h_proto h)) +
     (if h_crlf h then 1 else 0) <= lim_line lim)%Z.
