(* Property C104: the read timeout. *)
From Coq Require Import Lia.
From Verif Require Import M_Base M_Status M_Method M_Proto M_KeyValue M_Query M_Request M_Parser M_Client M_Body
  M_Response M_Serializer M_Suit M_Config S_KeyValue S_Chunk S_Head S_Parser S_Body S_Response S_Conn L_Conn2 L_Conn3 L_ConnProps P_Parser P_Conn M_Timed S_Timed L_Timed.

(* C104: a peer that never pauses longer than the timeout is never disconnected by it: whatever
   the server does between the reads and however much the system returns at a time, all bytes
   are read, at most a buffer at a time; then the next read ends as the peer does, or exactly
   one timeout after it began. *)
Theorem C104_steady_exact : forall size timeout, (0 < timeout)%Z -> (1 <= size)%nat ->
  forall steps now s, Forall (fun x => (0 <= fst x)%Z) steps -> Steady timeout now (so_bytes s) -> (List.length (so_bytes s) < List.length steps)%nat ->
  exists oks d want steps' rest, timed_reads size timeout steps now s = oks ++ last_read timeout (ended now oks + d) (so_end s) :: rest /\
    skipn (List.length oks) steps = (d, want) :: steps' /\
    Forall (fun x => snd (fst x) = None /\ (1 <= List.length (fst (fst x)) <= size)%nat) oks /\
    data_of oks = map snd (so_bytes s) /\ (now <= ended now oks)%Z /\ (last_time now (so_bytes s) <= ended now oks)%Z.
Proof. intros size timeout HT HS steps now s HD St HL. exact (steady_whole size timeout HT HS steps now s now HD (Z.le_refl now) St HL). Qed.
Print Assumptions C104_steady_exact.
(* C104: and nobody else is disconnected early: if a connection is cut off, then exactly one timeout
   after a read began, and the next byte, if there is one, comes later. *)
Theorem C104_not_early : forall size timeout, (0 < timeout)%Z -> (1 <= size)%nat -> forall steps now s oks t rest,
  match so_end s with Some (_, e) => e <> NOther | None => True end ->
  timed_reads size timeout steps now s = oks ++ (([], Some NOther), t) :: rest -> Forall (fun x => snd (fst x) = None) oks ->
  exists d want steps', skipn (List.length oks) steps = (d, want) :: steps' /\ t = (ended now oks + d + timeout)%Z /\
  data_of oks = firstn (List.length (data_of oks)) (map snd (so_bytes s)) /\
  match skipn (List.length (data_of oks)) (so_bytes s) with
  | (u, _) :: _ => (t < u)%Z
  | [] => match so_end s with Some (u, _) => (t < u)%Z | None => True end
  end.
Proof. exact not_early. Qed.
Print Assumptions C104_not_early.
(* C104: no read waits longer than the timeout *)
Theorem C104_bound : forall size timeout steps now s,
  (now + total steps <= ended now (timed_reads size timeout steps now s) <= now + total steps + Z.of_nat (List.length steps) * Z.max 0 timeout)%Z.
Proof. exact reads_bound. Qed.
Print Assumptions C104_bound.
(* C104: from the bytes that arrive over time to the responses: a client that never pauses longer
   than the timeout while it sends well-formed requests gets the answers of C07, however slowly
   the server works, and is disconnected after that.  Missing: what C07_conversation_partial leaves
   out. *)
Theorem C104_served_partial : forall CS cparse encoded fresh inside,
  DecoderOk CS cparse encoded fresh inside -> forall max, (max < two64)%Z ->
  forall cfg umax kmax vmax fbs defs, distinct_names defs ->
  forall W (on_request : W -> request -> hprog W) (on_error : W -> request -> http_error -> hprog W),
  forall reqs tail enc cs w, fresh cs ->
  (forall q w r, In q reqs -> Shows (q_head q) r -> Ordinary fbs (on_request w r)) ->
  Forall (GoodRequest encoded (cfg_limits cfg umax kmax vmax) max) reqs ->
  Unfinished (cfg_limits cfg umax kmax vmax) tail ->
  forall size timeout steps now s, (0 < timeout)%Z -> (1 <= size)%nat -> Forall (fun x => (0 <= fst x)%Z) steps ->
  Steady timeout now (so_bytes s) -> (List.length (so_bytes s) < List.length steps)%nat ->
  map snd (so_bytes s) = concat (map wire reqs) ++ tail ->
  exists n outs closed st1,
    Conversation defs on_request reqs w [] outs (k_world st1) closed /\ cl_out (k_client st1) = outs /\
    forall fuel, (n <= fuel)%nat ->
      serve cparse max cfg on_request on_error fuel (new_conn umax kmax vmax fbs defs enc cs (timed_client size timeout steps now s []) w) =
      close_with cparse max on_error (match closed with None => EndRead | Some _ => EndWrite end) st1.
Proof.
  intros CS cparse encoded fresh inside DK max HM cfg umax kmax vmax fbs defs DN W on_request on_error reqs tail enc cs w Hcs HO HG HU size timeout steps now s HT HS HD St HL ES.
  destruct (C07_conversation_partial CS cparse encoded fresh inside DK max HM cfg umax kmax vmax fbs defs DN W on_request on_error reqs []
    (new_conn umax kmax vmax fbs defs enc cs (timed_client size timeout steps now s []) w) tail HO) as (n & outs & closed & st1 & HC & Ho & Hs).
  - apply C07_new_connection; [exact Hcs|constructor].
  - exact HG.
  - exact HU.
  - change (stream (timed_client size timeout steps now s []) = concat (map wire reqs) ++ tail). rewrite <- ES. apply (steady_stream size timeout steps now s now); try assumption. apply Z.le_refl.
  - exists n, outs, closed, st1. split; [exact HC|]. split; [exact Ho|exact Hs].
Qed.
Print Assumptions C104_served_partial.

(* C104 is false as documented: the timeout bounds each read, not the client: one that sends one
   byte per timeout keeps its connection for as long as it likes without ever sending a
   request: nothing limits the digits of Content-Length *)
Theorem C104_refuted : forall CS cparse encoded fresh inside,
  DecoderOk CS cparse encoded fresh inside -> forall max, (max < two64)%Z ->
  forall cfg umax kmax vmax fbs defs, distinct_names defs ->
  let lim := cfg_limits cfg umax kmax vmax in (14 <= lim_line lim)%Z -> (1 <= lim_headers lim)%Z -> (14 <= lim_keys lim)%Z -> (0 <= lim_values lim)%Z ->
  forall W (on_request : W -> request -> hprog W) (on_error : W -> request -> http_error -> hprog W) enc cs w, fresh cs ->
  forall size timeout now late, (0 < timeout)%Z -> (1 <= size)%nat ->
  exists steps s oks last rest, Forall (fun x => fst x = 0%Z) steps /\
    timed_reads size timeout steps now s = oks ++ last :: rest /\ Forall (fun x => snd (fst x) = None) oks /\ (late < snd last)%Z /\
    exists n st1, cl_out (k_client st1) = [] /\ k_world st1 = w /\
      forall fuel, (n <= fuel)%nat ->
        serve cparse max cfg on_request on_error fuel (new_conn umax kmax vmax fbs defs enc cs (timed_client size timeout steps now s []) w) =
        close_with cparse max on_error EndRead st1.
Proof.
  intros CS cparse encoded fresh inside DK max HM cfg umax kmax vmax fbs defs DN lim L1 L2 L3 L4 W on_request on_error enc cs w Hcs size timeout now late HT HS.
  set (k := Z.to_nat (Z.max 0 (late - now))). set (s := Socket (every timeout now (slow_text k)) None).
  set (steps := repeat (0%Z, 0%nat) (S (List.length (slow_text k)))).
  assert (HD : Forall (fun x : Z * nat => fst x = 0%Z) steps) by (apply Forall_forall; intros x Hx; apply repeat_spec in Hx; subst x; reflexivity).
  assert (HD' : Forall (fun x : Z * nat => (0 <= fst x)%Z) steps) by (eapply Forall_impl; [|exact HD]; cbn; lia).
  assert (St : Steady timeout now (so_bytes s)) by (apply every_steady; lia).
  assert (HL : (List.length (so_bytes s) < List.length steps)%nat) by (unfold steps; rewrite repeat_length; cbn [so_bytes s]; rewrite every_length; lia).
  destruct (C104_steady_exact size timeout HT HS steps now s HD' St HL) as (oks & d & want & steps' & rest & E & EN & F & ED & _ & EK).
  destruct (C104_served_partial CS cparse encoded fresh inside DK max HM cfg umax kmax vmax fbs defs DN W on_request on_error [] (slow_text k) enc cs w Hcs
    (fun q _ _ H => match H with end) (Forall_nil _) (slow_unfinished lim k L1 L2 L3 L4) size timeout steps now s HT HS HD' St HL) as (n & outs & closed & st1 & HC & Ho & Hs).
  { cbn [map concat app so_bytes s]. apply every_bytes. }
  inversion HC; subst. exists steps, s, oks, (last_read timeout (ended now oks + d) None), rest.
  split; [exact HD|]. split; [exact E|]. split; [eapply Forall_impl; [|exact F]; cbn; tauto|]. split.
  - cbn [last_read snd]. cbn [so_bytes s] in EK. rewrite every_last in EK.
    assert (Hd : (d = 0)%Z).
    { rewrite Forall_forall in HD. apply (HD (d, want)). rewrite <- (firstn_skipn (List.length oks) steps), EN. apply in_or_app. right. left. reflexivity. }
    assert (Hk : (late - now <= Z.of_nat (List.length (slow_text k)) * timeout)%Z).
    { unfold slow_text. rewrite !app_length, repeat_length. unfold k. clear - HT. nia. }
    lia.
  - exists n, st1. split; [congruence|]. split; [congruence|]. exact Hs.
Qed.
Print Assumptions C104_refuted.
(* C104 also fails for negative timeouts, which the configuration keeps: every read fails at once,
   whatever has arrived: each connection is closed unanswered *)
Theorem C104_negative_refuted : forall cfg, (read_timeout cfg < 0)%Z -> read_timeout (fill cfg) = read_timeout cfg /\
  forall size steps now s, Forall (fun x => fst x = ([], Some NOther)) (timed_reads size (read_timeout (fill cfg)) steps now s) /\
    ended now (timed_reads size (read_timeout (fill cfg)) steps now s) = (now + total steps)%Z.
Proof.
  intros cfg H. assert (E : read_timeout (fill cfg) = read_timeout cfg).
  { unfold fill. cbn [read_timeout]. unfold num_or. rewrite (proj2 (Z.eqb_neq (read_timeout cfg) 0)) by lia. reflexivity. }
  split; [exact E|]. intros size steps now s. apply reads_off. rewrite E. lia.
Qed.
Print Assumptions C104_negative_refuted.

(* a request line with pauses of one less than the timeout, read at most three bytes at a time by
   a server that takes its time; then silence *)
Example C104_case : let s := Socket (every 9 0 (B "GET / HTTP/1.1")) None in
  Steady 9 0 (so_bytes s) /\
  timed_reads 3 10 [(0, 5%nat); (30, 2%nat); (0, 5%nat); (200, 5%nat); (0, 9%nat); (0, 9%nat); (0, 9%nat); (7, 9%nat); (0, 1%nat)]%Z 0 s =
    [((B "G", None), 9); ((B "ET", None), 39); ((B " ", None), 39); ((B "/ H", None), 239); ((B "TTP", None), 239); ((B "/1.", None), 239); ((B "1", None), 239);
     (([], Some NOther), 256); (([], Some NOther), 266)]%Z.
Proof. vm_compute. repeat split; discriminate. Qed.
(* a byte that comes one unit late is not waited for *)
Example C104_case_late : timed_reads 3 10 [(0, 5%nat); (4, 5%nat)]%Z 0 (Socket [(10, x41); (25, x42)]%Z None) = [((B "A", None), 10); (([], Some NOther), 24)]%Z /\
  timed_reads 3 10 [(0, 5%nat); (5, 5%nat); (0, 5%nat)]%Z 0 (Socket [(10, x41); (25, x42)]%Z (Some (30%Z, NEof))) = [((B "A", None), 10); ((B "B", None), 25); (([], Some NEof), 30)]%Z.
Proof. split; reflexivity. Qed.
