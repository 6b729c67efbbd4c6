(* C100: what a response is built of is not changed by building it. *)
From Verif Require Import M_Base M_Status M_Proto M_KeyValue M_Query M_Request M_Client M_Body M_Mem M_Response M_RespMem S_RespMem L_RespMem.

(* If no call adds to lent memory (Careful: decided by the lengths and capacities alone), then
   for all memory, all sequences of calls and all growth policies the builder does not fail,
   nothing of the memory there was before is changed, and the body is the one that follows from
   the bytes alone (M_Response, on which all other theorems about responses rest).
   Missing: the other sequences, see C100_exact and C100_refuted *)
Theorem C100_partial : forall spare h cs, Forall (LendableCall h) cs -> Careful cs ->
  exists r f, bcalls_run spare cs (new_mresp h) = Some r /\ Kept h (mr_heap r) /\
    resp_ops (map (as_rop h) cs) new_response = Some f /\ gs_get (mr_heap r) (mr_body r) = f_body f.
Proof.
  intros spare h cs HL HC. destruct (shows_calls spare h cs _ _ new_response HL (good_new h) HC) as (r & f & E & Ef & HB); [reflexivity|].
  exists r, f. split; [exact E|]. split; [|split; assumption].
  pose proof (good_calls spare h cs _ _ HL (good_new h)) as HG. unfold Careful in HC. destruct calls_on as [w|]; [|congruence].
  destruct HG as (r' & E' & [(new & En & _) _ _]). rewrite E in E'. injection E' as <-. exists new. exact En.
Qed.
Print Assumptions C100_partial.

(* And only then: a sequence of calls writes to memory that was there before, or dies in the
   attempt, if and only if some call adds to lent memory. *)
Theorem C100_exact : forall spare h cs, Forall (LendableCall h) cs ->
  (~ Careful cs <->
   bcalls_run spare cs (new_mresp h) = None \/
   exists r, bcalls_run spare cs (new_mresp h) = Some r /\ Exists (fun i => i < List.length h)%nat (mr_wrote r)).
Proof.
  intros spare h cs HL. pose proof (good_calls spare h cs _ _ HL (good_new h)) as HG. unfold Careful.
  destruct calls_on as [w|]; [|split; [auto|congruence]].
  destruct HG as (r & E & G). split; [intros N; exfalso; apply N; discriminate|].
  intros [H|(r' & E' & HE)]; [congruence|]. rewrite E in E'. injection E' as <-.
  pose proof (gd_wrote _ _ _ G) as HW. apply Exists_exists in HE. destruct HE as (i & Hi & Hl). rewrite Forall_forall in HW.
  specialize (HW i Hi). cbn in HW. lia.
Qed.
Print Assumptions C100_exact.

(* When all that is lent is constants of the program, the process ends if and only if some call
   adds to lent memory. *)
Theorem C100_constants : forall spare h cs, Forall (fun a => ar_ro a = true) h -> Forall (LendableCall h) cs ->
  (bcalls_run spare cs (new_mresp h) = None <-> ~ Careful cs).
Proof.
  intros spare h cs HR HL. unfold Careful. split.
  - intros E N. pose proof (good_calls spare h cs _ _ HL (good_new h)) as HG. destruct calls_on as [w|]; [|congruence].
    destruct HG as (r & E' & _). congruence.
  - intros N. apply (wrote_ro_calls spare h HR cs Nobodys); auto using good_new. destruct calls_on; [|reflexivity]. exfalso. apply N. discriminate.
Qed.
Print Assumptions C100_constants.

(* one array lent with room to spare: "hello" in 8 bytes, and the constant "hi" *)
Definition ex_heap : heap := [Arr (B "hello...") false; Arr (B "hi") true].
Definition ex_hello : option gslice := Some (GS 0 0 5 8).
Definition ex_hi : option gslice := Some (GS 1 0 2 2).
Definition ex_spare (old need : nat) : nat := need.
Example C100_case :
  Forall (LendableCall ex_heap) [CString ex_hi; CWrite ex_hello; CWrite ex_hi; CClear; CJson [B "{"; B "}"] None; CWrite ex_hello] /\
  Careful [CString ex_hi; CWrite ex_hello; CWrite ex_hi; CClear; CJson [B "{"; B "}"] None; CWrite ex_hello] /\
  option_map (fun r => gs_get (mr_heap r) (mr_body r))
    (bcalls_run ex_spare [CString ex_hi; CWrite ex_hello; CWrite ex_hi] (new_mresp ex_heap)) = Some (B "hihellohi") /\
  ~ Careful [CBytes ex_hello; CWrite ex_hi] /\ ~ Careful [CString ex_hi; CJson [B "1"] None].
Proof.
  split; [repeat constructor; cbn; eexists; (split; [reflexivity|]); cbn; lia|].
  repeat split; try discriminate; intros N; apply N; reflexivity.
Qed.

(* JSON empties the body in place and writes over whatever Bytes lent to it: after
   Bytes(b).JSON(1), the caller's b reads "1ello". *)
Theorem C100_refuted : exists h b cs, Forall (LendableCall h) cs /\ gs_get h b = B "hello" /\
  forall spare, exists r, bcalls_run spare cs (new_mresp h) = Some r /\ gs_get (mr_heap r) b = B "1ello".
Proof.
  exists ex_heap, ex_hello, [CBytes ex_hello; CJson [B "1"] None].
  split; [repeat constructor; cbn; eexists; (split; [reflexivity|]); cbn; lia|]. split; [reflexivity|].
  intros spare. eexists. split; reflexivity.
Qed.
Print Assumptions C100_refuted.

(* String lends the memory of the string itself, and a string constant is read-only: JSON after
   a constant ends the process whenever the first piece the encoder writes is not longer than the
   constant. *)
Theorem C100_crash : forall spare text piece rest, piece <> [] -> (List.length piece <= List.length text)%nat ->
  bcalls_run spare [CString (Some (GS 0 0 (List.length text) (List.length text))); CJson (piece :: rest) None] (new_mresp [Arr text true]) = None.
Proof.
  intros spare text piece rest HN HL. apply C100_constants; [repeat constructor|..].
  - repeat constructor. cbn. eexists. split; [reflexivity|]. cbn. lia.
  - intros N. apply N. cbn [calls_on call_on lent_text gs_len adds map emptied]. destruct piece as [|x p]; [congruence|].
    cbn [add List.length] in *. destruct (Nat.leb_spec (0 + S (List.length p)) (List.length text)); [reflexivity|lia].
Qed.
Print Assumptions C100_crash.
(* A middleware that turns the text of an error into JSON: String("internal server error"), as
   onError does, then JSON.  The encoder's 14 bytes are written over the constant, which is in
   read-only memory, and the process ends. *)
Theorem C100_crash_refuted : exists h cs, Forall (LendableCall h) cs /\ forall spare, bcalls_run spare cs (new_mresp h) = None.
Proof.
  exists [Arr (B "internal server error") true], [CString (Some (GS 0 0 21 21)); CJson [B "{""error"":true}"] None]. split.
  - repeat constructor. cbn. eexists. split; [reflexivity|]. cbn. lia.
  - intros spare. apply (C100_crash spare (B "internal server error")); [discriminate|]. cbn. lia.
Qed.
Print Assumptions C100_crash_refuted.

(* ---- the buffer of the connection ---- *)
(* A body read with Retrieve is a slice of the connection's buffer.  As long as no call adds to
   lent memory, building a response from it changes neither the buffer nor what the connection
   will read next.  Missing: the other sequences, see C100_buffer_refuted *)
Theorem C100_buffer_partial : forall spare c h cs r, Forall (LendableCall (buffer_heap c h)) cs -> Careful cs ->
  bcalls_run spare cs (new_mresp (buffer_heap c h)) = Some r -> with_buffer c (mr_heap r) = c.
Proof.
  intros spare c h cs r HL HC E. destruct (C100_partial spare _ _ HL HC) as (r' & f & E' & (new & En) & _).
  rewrite E in E'. injection E' as <-. rewrite En. destruct c. reflexivity.
Qed.
Print Assumptions C100_buffer_partial.

(* The last piece of a body with Content-Length has the bytes that follow the body right behind
   it, and room to be appended to.  Whatever a handler adds to a response that was given this
   piece takes the place of the next request, byte by byte, as far as the buffer reaches. *)
Theorem C100_buffer_exact : forall CS max (b : body CS) c piece b1 c1 h spare d arg,
  m_plain_read max b c = ((piece, Some BEof), b1, c1) -> (0 < bd_left b)%Z -> bd_left b1 = 0%Z ->
  (sl_off (mc_pending c) + sl_len (mc_pending c) <= List.length (mc_mem c))%nat ->
  d <> [] -> (sl_off piece + sl_len piece + List.length d <= List.length (mc_mem c1))%nat ->
  gs_get (buffer_heap c1 h) arg = d ->
  exists r, bcalls_run spare [CBytes (Some (of_buffer (mc_mem c1) piece)); CWrite arg] (new_mresp (buffer_heap c1 h)) = Some r /\
    sl_get (mc_mem (with_buffer c1 (mr_heap r))) (mc_pending c1) =
      firstn (sl_len (mc_pending c1)) (d ++ skipn (List.length d) (sl_get (mc_mem c1) (mc_pending c1))) .
Proof.
  intros CS max b c piece b1 c1 h spare d arg H HB HB1 HP HN HF HA.
  assert (Q : sl_off (mc_pending c1) = (sl_off piece + sl_len piece)%nat /\
              (sl_off (mc_pending c1) + sl_len (mc_pending c1) <= List.length (mc_mem c1))%nat).
  { unfold m_plain_read in H. destruct (Z.eqb_spec (bd_left b) 0); [lia|].
    assert (HR : forall s e c', mc_read c = ((s, e), c') -> e = None -> (sl_off s + sl_len s <= List.length (mc_mem c'))%nat).
    { intros s e c' R Ee. unfold mc_read in R. destruct (Nat.ltb 0 (sl_len (mc_pending c))); [injection R as <- _ <-; exact HP|].
      destruct (mc_net c) as [|(dd, ee) net]; [injection R as _ <- _; discriminate|]. injection R as <- _ <-. cbn.
      rewrite app_length, skipn_length. lia. }
    destruct (mc_read c) as [[s e] c'] eqn:R. destruct e as [ne|].
    { injection H as _ _ <- _. lia. }
    specialize (HR _ _ _ eq_refl eq_refl).
    destruct (bd_left b >? max)%Z; [discriminate|].
    destruct (Z.of_nat (sl_len s) >=? bd_left b)%Z eqn:EL; [|discriminate].
    injection H as <- _ <-. cbn. rewrite Z.geb_leb in EL. apply Z.leb_le in EL. lia. }
  destruct Q as (Q1 & Q2). unfold buffer_heap, of_buffer in *.
  cbn [bcalls_run bcall_run set_mbody mr_heap new_mresp]. rewrite HA. unfold go_append.
  destruct d as [|x d0]; [congruence|]. set (d := x :: d0) in *. clearbody d.
  cbn [mr_body mr_heap mr_wrote set_mbody gs_len gs_cap gs_off gs_arr].
  destruct (Nat.leb_spec (sl_len piece + List.length d) (List.length (mc_mem c1) - sl_off piece)) as [_|?]; [|lia].
  cbn [nth_error ar_ro]. eexists. split; [reflexivity|].
  cbn [mr_heap set_arr firstn skipn app with_buffer ar_put ar_bytes mc_mem]. unfold sl_get. rewrite Q1.
  set (m := mc_mem c1) in *. set (o := (sl_off piece + sl_len piece)%nat) in *. set (n := sl_len (mc_pending c1)) in *.
  assert (Lf : List.length (firstn o m) = o) by (rewrite firstn_length; lia).
  rewrite skipn_app, Lf, Nat.sub_diag, skipn_all2 by lia. cbn [skipn app].
  rewrite !firstn_app. f_equal.
  rewrite skipn_firstn_comm, firstn_firstn, Nat.min_id.
  rewrite skipn_twice. do 2 f_equal. lia.
Qed.
Print Assumptions C100_buffer_exact.

(* Two requests arrive at once: a POST with the body "GET /b", then "GET /a".  The handler of
   the POST echoes the body twice, Bytes(data) and Write(data); the response is as it should be,
   but the server then answers "GET /b", which nobody requested, and never sees "GET /a". *)
Theorem C100_buffer_refuted : exists (b : body unit) c s b1 c1,
  m_retrieve (fun st _ _ => (st, (sl_nil, 0%nat, None))) 100 b c = ((s, Some BEof), b1, c1) /\
  sl_get (mc_mem c1) s = B "GET /b" /\ sl_get (mc_mem c1) (mc_pending c1) = B "GET /a HTTP/1.1" ++ CRLF ++ CRLF /\
  forall spare, exists r, bcalls_run spare [CBytes (Some (of_buffer (mc_mem c1) s)); CWrite (Some (of_buffer (mc_mem c1) s))]
                           (new_mresp (buffer_heap c1 [])) = Some r /\
    gs_get (mr_heap r) (mr_body r) = B "GET /bGET /b" /\
    sl_get (mc_mem (with_buffer c1 (mr_heap r))) (mc_pending c1) = B "GET /b HTTP/1.1" ++ CRLF ++ CRLF.
Proof.
  exists (set_left 6 (new_body tt)), (MClient [(B "GET /bGET /a HTTP/1.1" ++ CRLF ++ CRLF, None)] (repeat x00 64) sl_nil [] []).
  eexists _, _, _. split; [reflexivity|]. split; [reflexivity|]. split; [reflexivity|].
  intros spare. eexists. split; [reflexivity|]. split; reflexivity.
Qed.
Print Assumptions C100_buffer_refuted.
