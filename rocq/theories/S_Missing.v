(* Specification: requests whose fixed-length body does not come: the connection ends before it is
   complete, or it is longer than bodies may be. *)
From Verif Require Import M_Base M_Status M_Method M_Proto M_KeyValue M_Query M_Request M_Parser M_Client M_Body
  M_Response M_Serializer M_Suit M_Path M_Radix M_Router S_KeyValue S_Chunk S_Head S_Parser S_Body S_Response S_Split S_Verdict S_Arrive S_Conn S_Routes S_Router S_Serve S_Upgrade S_Talk.

(* a connection that comes to an end: the other side hangs up (true), or it breaks (false) *)
Inductive Gone (hung : bool) : list (bytes * option neterr) -> Prop :=
| Gn_read : forall d net, Gone hung net -> Gone hung ((d, None) :: net)
| Gn_hung : forall d net, hung = true -> net_reads net = [] -> Gone hung ((d, Some NEof) :: net)
| Gn_broken : forall net, hung = false -> Forall (fun ev => snd ev = Some NOther) net -> Gone hung net.
(* [Lacks max long r rest]: r announces a fixed length, as an unsigned number, that is more than
   a body may have (long) or more than the bytes that come *)
Definition unsigned (z : Z) : Z := if (z <? 0)%Z then (z + 18446744073709551616)%Z else z.
Definition Lacks (max : Z) (long : bool) (r : request) (rest : bytes) : Prop :=
  enc_chunked (r_encoding r) = false /\
  if long then (max < unsigned (r_content_length r))%Z else (len rest < unsigned (r_content_length r) <= max)%Z.
(* more than can be allocated *)
Definition huge (r : request) : bool := (max_alloc <? r_content_length r)%Z.

(* ---- such a body as its handler sees it ---- *)
(* m_left: not handed out yet; m_end: the end has been reported; m_stash, m_note: what Read still
   holds back, and with which error; m_whole: the answer of an earlier Bytes *)
Record mview := MView { m_left : bytes; m_end : bool; m_stash : bytes; m_note : option berr; m_whole : option bytes }.
Section Missing.
Variables (long hung big : bool).
(* the errors: the length is not allowed, or the connection broke; when the other side hung up,
   what has come passes for the whole body *)
Definition fails (e : berr) : Prop := (e = BTooLarge /\ long = true) \/ (e = BNet /\ hung = false).
Inductive MPiece : mview -> bytes -> option berr -> mview -> Prop :=
| Mp_more : forall d l st n wh, MPiece (MView (d ++ l) false st n wh) d None (MView l false st n wh)
| Mp_fail : forall e st n wh, fails e -> MPiece (MView [] false st n wh) [] (Some e) (MView [] false st n wh)
| Mp_last : forall st n wh, hung = true -> MPiece (MView [] false st n wh) [] (Some BEof) (MView [] true st n wh)
| Mp_end : forall st n wh, MPiece (MView [] true st n wh) [] (Some BEof) (MView [] true st n wh).
Inductive MPieces (cb : list bytes -> bool) : list bytes -> mview -> list bytes -> option (option berr) -> mview -> Prop :=
| Ms_refused : forall seen v d e v', MPiece v d e v' -> (e = None \/ e = Some BEof) -> cb (seen ++ [d]) = false -> MPieces cb seen v (seen ++ [d]) None v'
| Ms_done : forall seen v d v', MPiece v d (Some BEof) v' -> cb (seen ++ [d]) = true -> MPieces cb seen v (seen ++ [d]) (Some (Some BEof)) v'
| Ms_failed : forall seen v d e v', MPiece v d (Some e) v' -> e <> BEof -> MPieces cb seen v seen (Some (Some e)) v'
| Ms_more : forall seen v d v' all res v2, MPiece v d None v' -> cb (seen ++ [d]) = true ->
    MPieces cb (seen ++ [d]) v' all res v2 -> MPieces cb seen v all res v2.
Inductive MAnswer : mview -> bop -> bout -> mview -> Prop :=
| Ma_bytes : forall l st n wh, hung = true -> MAnswer (MView l false st n wh) OBytes (RBytes (BROk l)) (MView [] true st n (Some l))
| Ma_fails : forall l st n wh e, fails e -> MAnswer (MView l false st n wh) OBytes (RBytes (BRErr e)) (MView [] false st n None)
(* the bytes announced can not be allocated (C09) *)
| Ma_panics : forall l st n wh, big = true -> MAnswer (MView l false st n wh) OBytes (RBytes BRPanic) (MView l false st n wh)
| Ma_again : forall st n d, MAnswer (MView [] true st n (Some d)) OBytes (RBytes (BROk d)) (MView [] true st n (Some d))
| Ma_stale : forall st n d, MAnswer (MView [] true st n None) OBytes (RBytes (BROk d)) (MView [] true st n None)
| Ma_retrieve : forall v d e v', MPiece v d e v' -> MAnswer v ORetrieve (RPiece d e) v'
| Ma_read : forall v d e v' n, MPiece v d e v' -> m_stash v = [] -> m_note v = None ->
    MAnswer v (ORead n) (RPiece (firstn n d) (match skipn n d with [] => e | _ => None end)) (MView (m_left v') (m_end v') (skipn n d) e (m_whole v'))
| Ma_read_held : forall l en st note wh n, st <> [] \/ note <> None ->
    MAnswer (MView l en st note wh) (ORead n) (RPiece (firstn n st) (match skipn n st with [] => note | _ => None end)) (MView l en (skipn n st) note wh)
| Ma_callback : forall cb v all res v', MPieces cb [] v all res v' -> MAnswer v (OCallback cb) (RCallback all res) v'
| Ma_discard : forall l en st n wh, (en = true \/ hung = true) -> MAnswer (MView l en st n wh) ODiscard (RDiscard (Some None)) (MView [] true st n wh)
| Ma_discards : forall l st n wh e, fails e -> MAnswer (MView l false st n wh) ODiscard (RDiscard (Some (Some e))) (MView [] false st n wh).
End Missing.
(* a run of a handler on such a body; as HSteps *)
Inductive HGoes {W V} (A : V -> bop -> bout -> V -> Prop) : hprog W -> request -> V -> hout W -> request -> V -> Prop :=
| HG_ret : forall resp w r v, HGoes A (HRet resp w) r v (Returns resp w) r v
| HG_crash : forall r v, HGoes A HCrash r v Panics r v
| HG_body : forall op k r v x v1 o r' v', A v op x v1 -> x <> RBytes BRPanic -> HGoes A (k x) r v1 o r' v' -> HGoes A (HBody op k) r v o r' v'
| HG_bang : forall op k r v v1, A v op (RBytes BRPanic) v1 -> HGoes A (HBody op k) r v Panics r v1
| HG_update : forall g k r v o r' v', HGoes A k (g r) v o r' v' -> HGoes A (HUpdate g k) r v o r' v'
| HG_look : forall k r v o r' v', HGoes A (k r) r v o r' v' -> HGoes A (HLook k) r v o r' v'
| HG_try : forall p q k r v resp w r1 v1 o r' v', HGoes A p r v (Returns resp w) r1 v1 -> HGoes A (k resp w) r1 v1 o r' v' -> HGoes A (HTry p q k) r v o r' v'
| HG_recover : forall p q k r v r1 v1 resp w r2 v2 o r' v', HGoes A p r v Panics r1 v1 -> HGoes A q r1 v1 (Returns resp w) r2 v2 ->
    HGoes A (k resp w) r2 v2 o r' v' -> HGoes A (HTry p q k) r v o r' v'
| HG_again : forall p q k r v r1 v1 r' v', HGoes A p r v Panics r1 v1 -> HGoes A q r1 v1 Panics r' v' -> HGoes A (HTry p q k) r v Panics r' v'.
(* what there is of a body when it is too long: nothing is handed out *)
Definition missing_view (long : bool) (rest : bytes) : mview := MView (if long then [] else rest) false [] None None.
Definition MissHandled {W} (on_request : W -> request -> hprog W) (long hung : bool) (w : W) (r : request) (rest : bytes) (o : hout W) (r' : request) : Prop :=
  exists v', HGoes (MAnswer long hung (huge r)) (on_request w r) r (missing_view long rest) o r' v'.
Definition MissRouted {W} (os : list (list nat * rop W)) (long hung : bool) (w : world W) (r : request) (rest : bytes) (o : hout (world W)) (r' : request) : Prop :=
  exists h r1 v', Dispatch os r h r1 /\ HGoes (MAnswer long hung (huge r)) (h w r1) r1 (missing_view long rest) o r' v'.
