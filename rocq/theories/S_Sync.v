(* Specification: where the next request is looked for. *)
From Verif Require Import M_Base M_Status M_Method M_Proto M_KeyValue M_Query M_Request M_Parser M_Client M_Body
  M_Response M_Serializer M_Suit S_Head S_Body S_Conn.

(* all the bytes that are still to come, also those behind reads that fail *)
Fixpoint arriving (net : list (bytes * option neterr)) : bytes :=
  match net with
  | [] => []
  | (d, None) :: net' => d ++ arriving net'
  | (_, Some _) :: net' => arriving net'
  end.
Definition coming (c : client) : bytes := cl_pending c ++ arriving (cl_net c).
Definition hung_up (net : list (bytes * option neterr)) : Prop := exists d, In (d, Some NEof) net.

(* What is relied upon about the external chunk decoder when the bytes may be anything: the data it
   hands out is that of the bytes it has used, and the end it reports is that of a coding.
   [begun s tr u d]: it has used u and handed out d. *)
Record DecoderSound (CS : Type) (cparse : CS -> bytes -> bool -> CS * (bytes * bytes * option cerr))
    (encoded : bool -> bytes -> bytes -> Prop) (fresh : CS -> Prop)
    (begun : CS -> bool -> bytes -> bytes -> Prop) : Prop := {
  ds_start : forall s tr, fresh s -> begun s tr [] [];
  ds_more : forall s tr u d data s' chunk extra, begun s tr u d -> cparse s data tr = (s', (chunk, extra, None)) ->
    exists used, data = used ++ extra /\ begun s' tr (u ++ used) (d ++ chunk);
  ds_end : forall s tr u d data s' chunk extra, begun s tr u d -> cparse s data tr = (s', (chunk, extra, Some CEof)) ->
    exists used, data = used ++ extra /\ encoded tr (u ++ used) (d ++ chunk) /\ fresh s'
}.

(* the bytes are one body that may be that long, then rest' *)
Definition OneBody (encoded : bool -> bytes -> bytes -> Prop) (max : Z) (r : request) (rest text rest' : bytes) : Prop :=
  (len text <= max)%Z /\
  if enc_chunked (r_encoding r) then exists w, rest = w ++ rest' /\ encoded (enc_trailer (r_encoding r)) w text
  (* the announced length, as an unsigned number of 64 bits *)
  else rest = text ++ rest' /\ (r_content_length r mod 18446744073709551616)%Z = len text.

(* the answers that refuse a body: it is too large, or not in the coding *)
Definition refusal (e : option berr) : bool := match e with Some BTooLarge | Some BChunkErr => true | _ => false end.
Definition turned_down (o : bout) : bool :=
  match o with
  | RBytes (BRErr e) => refusal (Some e)
  | RPiece _ e => refusal e
  | RCallback _ (Some e) => refusal e
  | RDiscard (Some e) => refusal e
  | _ => false
  end.
(* what the accessors answer during a run of a handler that leaves the connection alone *)
Section Told.
Context {CS : Type} (cparse : CS -> bytes -> bool -> CS * (bytes * bytes * option cerr)) (max : Z) {W : Type}.
Fixpoint told (h : hprog W) (r : request) (b : body CS) (c : client) : list bout :=
  match h with
  | HBody op k =>
      let '(o, b', c') := body_op cparse max op b c in
      o :: match stops o with None => told (k o) r b' c' | Some _ => [] end
  | HUpdate g k => told k (g r) b c
  | HLook k => told (k r) r b c
  | HTry p q k =>
      told p r b c ++
      match run_handler cparse max p r b c with
      | HDone resp w r' b' c' => told (k resp w) r' b' c'
      | HPanic r' b' c' =>
          told q r' b' c' ++
          match run_handler cparse max q r' b' c' with
          | HDone resp w r2 b2 c2 => told (k resp w) r2 b2 c2
          | _ => []
          end
      | HStuck => []
      end
  | _ => []
  end.
End Told.
(* handlers that leave the connection alone; they may panic and send anything *)
Definition LeavesAlone {W} (h : hprog W) : Prop := Tame (fun _ => True) true h.
