(* Specification: requests whose chunked body does not come: the connection ends before it is
   complete, it is longer than bodies may be, or the bytes are no coding. *)
From Verif Require Import M_Base M_Status M_Method M_Proto M_KeyValue M_Query M_Request M_Parser M_Client M_Body
  M_Response M_Serializer M_Suit M_Path M_Radix M_Router S_KeyValue S_Chunk S_Head S_Parser S_Body S_Response S_Split S_Verdict S_Arrive S_Conn S_Routes S_Router S_Serve S_Upgrade S_Talk S_Missing S_Sync S_Ends.

Section Coding.
Variable encoded : bool -> bytes -> bytes -> Prop.
(* the bytes u begin a body, and d is all of its data that they determine *)
Record Determines (tr : bool) (u d : bytes) : Prop := {
  dt_can : exists w t, encoded tr (u ++ w) t;
  dt_must : forall w t, encoded tr (u ++ w) t -> exists t', t = d ++ t';
  dt_all : forall x, (forall w t, encoded tr (u ++ w) t -> exists t', t = x ++ t') -> (List.length x <= List.length d)%nat
}.
(* whatever follows, the bytes do not begin with a body *)
Definition NoCoding (tr : bool) (s : bytes) : Prop := forall more w t tail, encoded tr w t -> s ++ more <> w ++ tail.
(* the external decoder, on any bytes: it does not lie, makes progress, hands out what is determined
   and reports only what is an error *)
Record DecoderHonest (CS : Type) (cparse : CS -> bytes -> bool -> CS * (bytes * bytes * option cerr))
    (fresh : CS -> Prop) (begun : CS -> bool -> bytes -> bytes -> Prop) : Prop := {
  dh_sound : DecoderSound CS cparse encoded fresh begun;
  dh_moves : DecoderMoves cparse;
  dh_data : forall s tr u d, begun s tr u d -> Determines tr u d;
  dh_error : forall s tr u d data s' chunk extra, begun s tr u d -> cparse s data tr = (s', (chunk, extra, Some CErr)) -> NoCoding tr (u ++ data)
}.
End Coding.

(* what the handler has been given, or: an error about the body has been reported, after which
   nothing is said (C106_refuted); the other side hung up, which passes for the end (C55) *)
Inductive cstate := Going (given : bytes) | Refused | Over.
(* c_stash, c_note: what Read still holds back, and with which error; c_whole: the answer of an earlier Bytes *)
Record cview := CView { c_state : cstate; c_stash : bytes; c_note : option berr; c_whole : option bytes }.
Section Broken.
Variables (encoded : bool -> bytes -> bytes -> Prop) (max : Z) (tr : bool) (rest : bytes) (hung : bool).
(* the data that the bytes up to somewhere determine, and that all of them determine *)
Definition Some_of (d : bytes) : Prop := (len d <= max)%Z /\ exists u v, rest = u ++ v /\ Determines encoded tr u d.
Definition All_of (d : bytes) : Prop := (len d <= max)%Z /\ Determines encoded tr rest d.
(* it is an error indeed *)
Definition at_fault (e : berr) : Prop :=
  (e = BTooLarge /\ exists u v d, rest = u ++ v /\ (max < len d)%Z /\ (Determines encoded tr u d \/ encoded tr u d)) \/
  (e = BChunkErr /\ NoCoding encoded tr rest).
Inductive CPiece : cstate -> bytes -> option berr -> cstate -> Prop :=
| Cp_more : forall g d, Some_of (g ++ d) -> CPiece (Going g) d None (Going (g ++ d))
| Cp_broken : forall g, hung = false -> All_of g -> CPiece (Going g) [] (Some BNet) (Going g)
| Cp_hung : forall g, hung = true -> All_of g -> CPiece (Going g) [] (Some BEof) Over
| Cp_fault : forall g e, at_fault e -> CPiece (Going g) [] (Some e) Refused
| Cp_after : forall d e, CPiece Refused d e Refused
| Cp_over : CPiece Over [] (Some BEof) Over.
(* the callback is called with the pieces *)
Inductive CPieces (cb : list bytes -> bool) : list bytes -> cstate -> list bytes -> option (option berr) -> cstate -> Prop :=
| Cs_refused : forall seen v d e v', CPiece v d e v' -> (e = None \/ e = Some BEof) -> cb (seen ++ [d]) = false -> CPieces cb seen v (seen ++ [d]) None v'
| Cs_done : forall seen v d v', CPiece v d (Some BEof) v' -> cb (seen ++ [d]) = true -> CPieces cb seen v (seen ++ [d]) (Some (Some BEof)) v'
| Cs_failed : forall seen v d e v', CPiece v d (Some e) v' -> e <> BEof -> CPieces cb seen v seen (Some (Some e)) v'
| Cs_more : forall seen v d v' all res v2, CPiece v d None v' -> cb (seen ++ [d]) = true ->
    CPieces cb (seen ++ [d]) v' all res v2 -> CPieces cb seen v all res v2.
Inductive CAnswer : cview -> bop -> bout -> cview -> Prop :=
| Ca_bytes : forall g l st n wh, hung = true -> All_of (g ++ l) -> CAnswer (CView (Going g) st n wh) OBytes (RBytes (BROk l)) (CView Over st n (Some l))
| Ca_broken : forall g l st n wh, hung = false -> All_of (g ++ l) -> CAnswer (CView (Going g) st n wh) OBytes (RBytes (BRErr BNet)) (CView (Going (g ++ l)) st n None)
| Ca_fault : forall g st n wh e, at_fault e -> CAnswer (CView (Going g) st n wh) OBytes (RBytes (BRErr e)) (CView Refused st n None)
| Ca_again : forall st n d, CAnswer (CView Over st n (Some d)) OBytes (RBytes (BROk d)) (CView Over st n (Some d))
| Ca_stale : forall st n d, CAnswer (CView Over st n None) OBytes (RBytes (BROk d)) (CView Over st n None)
| Ca_retrieve : forall s d e s' st n wh, CPiece s d e s' -> CAnswer (CView s st n wh) ORetrieve (RPiece d e) (CView s' st n wh)
| Ca_read : forall s d e s' n wh, CPiece s d e s' ->
    CAnswer (CView s [] None wh) (ORead n) (RPiece (firstn n d) (match skipn n d with [] => e | _ => None end)) (CView s' (skipn n d) e wh)
| Ca_read_held : forall s st note wh n, st <> [] \/ note <> None ->
    CAnswer (CView s st note wh) (ORead n) (RPiece (firstn n st) (match skipn n st with [] => note | _ => None end)) (CView s (skipn n st) note wh)
| Ca_callback : forall cb s all res s' st n wh, CPieces cb [] s all res s' -> CAnswer (CView s st n wh) (OCallback cb) (RCallback all res) (CView s' st n wh)
| Ca_discard : forall s st n wh, hung = true \/ s = Over -> s <> Refused -> CAnswer (CView s st n wh) ODiscard (RDiscard (Some None)) (CView Over st n wh)
| Ca_discard_broken : forall g l st n wh, hung = false -> All_of (g ++ l) -> CAnswer (CView (Going g) st n wh) ODiscard (RDiscard (Some (Some BNet))) (CView (Going (g ++ l)) st n wh)
| Ca_discard_fault : forall g st n wh e, at_fault e -> CAnswer (CView (Going g) st n wh) ODiscard (RDiscard (Some (Some e))) (CView Refused st n wh)
| Ca_after : forall op o st n wh, stops o = None -> op = OBytes \/ op = ODiscard -> CAnswer (CView Refused st n wh) op o (CView Refused st n None).
End Broken.
Definition broken_view : cview := CView (Going []) [] None None.
(* a chunked body announced by r, and no such body (of the allowed length) in the bytes *)
Definition Breaks (encoded : bool -> bytes -> bytes -> Prop) (max : Z) (r : request) (rest : bytes) : Prop :=
  enc_chunked (r_encoding r) = true /\ forall w t v, rest = w ++ v -> encoded (enc_trailer (r_encoding r)) w t -> (max < len t)%Z.
(* the handler's run on it; told: an error about the body was reported to it *)
Definition BreakHandled {W} (encoded : bool -> bytes -> bytes -> Prop) (max : Z) (tr hung : bool) (h : hprog W) (r : request) (rest : bytes) (resp : option fields) (w1 : W) (r' : request) (told : bool) : Prop :=
  exists v', HGoes (CAnswer encoded max tr rest hung) h r broken_view (Returns resp w1) r' v' /\ (told = true <-> c_state v' = Refused).
Definition BreakRouted {W} (encoded : bool -> bytes -> bytes -> Prop) (max : Z) (hung : bool) (os : list (list nat * rop W)) (w : world W) (r : request) (rest : bytes) (resp : option fields) (w1 : world W) (r' : request) (told : bool) : Prop :=
  exists h r1, Dispatch os r h r1 /\ BreakHandled encoded max (enc_trailer (r_encoding r)) hung (h w r1) r1 rest resp w1 r' told.
