(* Property C81: the slices of the connection buffer that are handed out, pushed back and held
   back behave like values. *)
From Verif Require Import M_Base M_Status M_Method M_Proto M_KeyValue M_Query M_Request M_Parser M_Client M_Body
  M_Response M_Serializer M_Suit M_Mem M_MemSuit S_Head S_Parser S_Body S_Conn S_Mem S_MemSuit L_Base L_Body L_Mem L_MemSuit P_Parser P_Body.

(* a decoder for which everything in a read is one chunk, the last one *)
Definition one_chunk (s : unit) (d : bytes) (_ : bool) : unit * (slice * nat * option cerr) :=
  (s, (Sl 0 (List.length d), List.length d, Some CEof)).
Lemma one_chunk_within : Within one_chunk.
Proof. intros s d tr s' ch ex e H. injection H as <- <- <- <-. cbn. lia. Qed.
Definition buffer8 : bytes := B "........".
Definition ex_mem (net : list bytes) : mclient := MClient (map ok_read net) buffer8 sl_nil [] [].
Lemma ex_shown : forall net, Forall (fun d => List.length d <= 8)%nat net -> Shown (new_client (map ok_read net) []) (ex_mem net).
Proof. intros net H. constructor; try reflexivity; [|cbn; lia]. cbn. apply Forall_map. exact H. Qed.

(* For all connections and all ways of using the first part of what was read and pushing back
   the rest: the same is used as if slices were values. *)
Theorem C81_loop : forall ks c m u ok c', Shown c m -> consume ks c = (u, ok, c') ->
  exists m', m_consume ks m = (u, ok, m') /\ Shown c' m'.
Proof. exact consume_shown. Qed.
Print Assumptions C81_loop.
Example C81_loop_case : consume [2; 1; 9; 9]%nat (new_client (map ok_read [B "abcd"; B "ef"]) []) = (B "abcdef", true, Client [] [] [] []) /\
  fst (m_consume [2; 1; 9; 9]%nat (ex_mem [B "abcd"; B "ef"])) = (B "abcdef", true) /\
  mc_mem (snd (m_consume [2; 1; 9; 9]%nat (ex_mem [B "abcd"; B "ef"]))) = B "efcd....".
Proof. vm_compute. repeat split. Qed.

(* For all calls of body accessors, on all connections and bodies: the answers are the same as
   if slices were values, except that Read may give other bytes (as many); the connection is
   left in the same place.  Missing: the bytes Read gives *)
Theorem C81_accessors_partial : forall CS mparse, Within mparse -> forall max ops (b : body CS) r c mb m os b1 c1,
  Shown c m -> set_stash [] None (mb_body mb) = set_stash [] None b ->
  body_ops (by_value mparse) max ops (body_init b r) c = (os, b1, c1) ->
  exists os' mb1 m1, m_ops mparse max ops (mb_init mb r) m = (os', mb1, m1) /\
    Forall2 (fun op oo => alike op (fst oo) (snd oo)) ops (combine os os') /\ List.length os' = List.length os /\
    Shown c1 m1 /\ set_stash [] None (mb_body mb1) = set_stash [] None b1.
Proof. exact memory_near. Qed.
Print Assumptions C81_accessors_partial.

(* If Read is not called after another accessor took over while Read was holding back bytes,
   the answers are exactly those. *)
Theorem C81_unmixed_partial : forall CS mparse, Within mparse -> forall max ops (b : body CS) r c mb m os b1 c1,
  Shown c m -> set_stash [] None (mb_body mb) = set_stash [] None b ->
  Unmixed (by_value mparse) max true ops (body_init b r) c ->
  body_ops (by_value mparse) max ops (body_init b r) c = (os, b1, c1) ->
  exists mb1 m1, m_ops mparse max ops (mb_init mb r) m = (os, mb1, m1) /\ Shown c1 m1 /\ set_stash [] None (mb_body mb1) = set_stash [] None b1.
Proof. exact memory_same. Qed.
Print Assumptions C81_unmixed_partial.
(* In particular: Reads first, then no Read anymore (the Reads or the others may be none). *)
Theorem C81_reads_first_partial : forall CS mparse max ns ops (b : body CS) c, Forall (fun op => is_read op = false) ops ->
  Unmixed (by_value mparse) max true (map ORead ns ++ ops) b c.
Proof. exact reads_first_unmixed. Qed.
Print Assumptions C81_reads_first_partial.
Example C81_case : let ops := [ORead 1; ORead 5; ORead 2; ORetrieve; ODiscard] in
  let c := new_client (map ok_read [B "abcd"; B "efgh"; B "ijGET"]) [] in
  Unmixed (by_value one_chunk) 100 true ops (body_init (new_body tt) (ex_post 10)) c /\
  fst (fst (body_ops (by_value one_chunk) 100 ops (body_init (new_body tt) (ex_post 10)) c)) =
    [RPiece (B "a") None; RPiece (B "bcd") None; RPiece (B "ef") None; RPiece (B "ij") (Some BEof); RDiscard (Some None)] /\
  fst (fst (m_ops one_chunk 100 ops (mb_init (MBody (new_body tt) sl_nil) (ex_post 10)) (ex_mem [B "abcd"; B "efgh"; B "ijGET"]))) =
    [RPiece (B "a") None; RPiece (B "bcd") None; RPiece (B "ef") None; RPiece (B "ij") (Some BEof); RDiscard (Some None)].
Proof. vm_compute. repeat split. Qed.

(* Read keeps a slice of the connection buffer between calls.  When another accessor reads from
   the connection meanwhile, the next Read returns what that one has read instead of the bytes
   held back: of the body "abcd" in two reads, Read (1 byte), Retrieve, Read (1 byte) gives "a",
   "cd", "d"; the byte "b" is lost and "d" delivered twice. *)
Theorem C81_refuted : exists ops net, Forall (fun d => List.length d <= 8)%nat net /\ concat net = B "abcd" /\
  fst (fst (m_ops one_chunk 100 ops (mb_init (MBody (new_body tt) sl_nil) (ex_post 4)) (ex_mem net))) =
    [RPiece (B "a") None; RPiece (B "cd") (Some BEof); RPiece (B "d") None] /\
  fst (fst (body_ops (by_value one_chunk) 100 ops (body_init (new_body tt) (ex_post 4)) (new_client (map ok_read net) []))) =
    [RPiece (B "a") None; RPiece (B "cd") (Some BEof); RPiece (B "b") None].
Proof.
  exists [ORead 1; ORetrieve; ORead 1], [B "ab"; B "cd"]. split; [repeat constructor|]. split; [reflexivity|]. vm_compute. split; reflexivity.
Qed.
Print Assumptions C81_refuted.
(* What Retrieve returned is good until the next call: the same slice, looked at before and after. *)
Example C81_kept_case : exists s b1 m1, m_retrieve one_chunk 100 (body_init (new_body tt) (ex_post 4)) (ex_mem [B "ab"; B "cd"]) = ((s, None), b1, m1) /\
  sl_get (mc_mem m1) s = B "ab" /\ sl_get (mc_mem (snd (m_retrieve one_chunk 100 b1 m1))) s = B "cd".
Proof. eexists _, _, _. split; [reflexivity|]. vm_compute. split; reflexivity. Qed.

(* Whole connections: if no handler calls Read after something else that reads which came after
   a Read, and no error handler calls Read at all, then for all input, all segmentations into
   reads that fit in the buffer, all outcomes of writes and all applications, the connection
   ends alike, the application ends in the same state and the same bytes are written, as if
   slices were values: what is proved of M_Suit.serve holds of the server with its buffer.
   Missing: other handlers (C81_refuted) *)
Theorem C81_server_partial : forall CS mparse, Within mparse -> forall max W cfg on_request on_error,
  (forall w r, Tidy Fresh (on_request w r) Over) -> (forall w r e, Tidy Over (on_error w r e) Over) ->
  forall umax kmax vmax fbs defs enc (cs : CS) net writes buff (w : W) fuel e st me mst,
  Forall (fun ev : bytes * option neterr => List.length (fst ev) <= List.length buff)%nat net ->
  serve (by_value mparse) max cfg on_request on_error fuel (new_conn umax kmax vmax fbs defs enc cs (new_client net writes) w) = (e, st) ->
  m_serve mparse max cfg on_request on_error fuel (m_new_conn umax kmax vmax fbs defs enc cs net writes buff w) = (me, mst) ->
  me = e /\ mk_world mst = k_world st /\ mc_out (mk_client mst) = cl_out (k_client st).
Proof. exact server_same. Qed.
Print Assumptions C81_server_partial.

(* a tidy handler, and one that mixes; the buffer has 64 bytes *)
Definition shows (o : bout) : bytes := match o with RPiece d _ => d | _ => [] end.
Definition reader (w : list bytes) (r : request) : hprog (list bytes) :=
  HBody (ORead 1) (fun a => HBody (ORead 9) (fun b => HBody ORetrieve (fun c => HRet None (w ++ [shows a; shows b; shows c])))).
Definition mixer (w : list bytes) (r : request) : hprog (list bytes) :=
  HBody (ORead 1) (fun a => HBody ORetrieve (fun b => HBody (ORead 1) (fun c => HRet None (w ++ [shows a; shows b; shows c])))).
Definition ends (w : list bytes) (r : request) (e : http_error) : hprog (list bytes) := HRet None (w ++ [B "end"]).
Definition buffer64 : bytes := repeat x2e 64.
Definition mem_net : list (bytes * option neterr) :=
  map ok_read [B "POST / HTTP/1.1" ++ CRLF ++ B "Content-Length: 4" ++ CRLF ++ CRLF; B "ab"; B "cdGET /"; B " HTTP/1.1" ++ CRLF ++ CRLF].
Definition mem_serve (h : list bytes -> request -> hprog (list bytes)) :=
  m_serve one_chunk 100 ex_cfg h ends 20 (m_new_conn 100 100 100 64 [] enc_plain tt mem_net [] buffer64 []).
Definition val_serve (h : list bytes -> request -> hprog (list bytes)) :=
  serve (by_value one_chunk) 100 ex_cfg h ends 20 (new_conn 100 100 100 64 [] enc_plain tt (new_client mem_net []) []).
Example C81_server_case : (forall w r, Tidy Fresh (reader w r) Over) /\ (forall w r e, Tidy Over (ends w r e) Over) /\
  Forall (fun ev : bytes * option neterr => List.length (fst ev) <= List.length buffer64)%nat mem_net /\
  mk_world (snd (mem_serve reader)) = [B "a"; B "b"; B "cd"; []; []; []; B "end"] /\
  List.length (mc_out (mk_client (snd (mem_serve reader)))) = 2%nat /\
  (~ exists v, Tidy Fresh (mixer [] new_request) v) /\
  k_world (snd (val_serve mixer)) = [B "a"; B "cd"; B "b"; []; []; []; B "end"] /\
  mk_world (snd (mem_serve mixer)) = [B "a"; B "cd"; B "d"; []; []; []; B "end"].
Proof.
  split; [intros; repeat (constructor; try discriminate; intros)|]. split; [intros; repeat constructor|].
  split; [apply Forall_forall; intros x Hx; vm_compute in Hx; repeat (destruct Hx as [<-|Hx]; [vm_compute; lia|]); destruct Hx|].
  split; [vm_compute; reflexivity|]. split; [vm_compute; reflexivity|].
  split; [|split; vm_compute; reflexivity].
  intros [v H]. inversion H as [|? ? ? ? ? H1| | | | | | |]; subst. specialize (H1 (RPiece [] None)). cbn in H1.
  inversion H1 as [|? ? ? ? ? H2| | | | | | |]; subst. specialize (H2 (RPiece [] None)). cbn in H2.
  inversion H2 as [|? ? ? ? Hr ?| | | | | | |]; subst. apply Hr; reflexivity.
Qed.
