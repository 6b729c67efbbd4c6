(* The body properties in the form stated in P_Body.v. *)
From Verif Require Import M_Base M_Status M_Method M_Proto M_KeyValue M_Query M_Request M_Parser M_Client M_Body
  S_Head S_Parser S_Body S_Chunk L_Base L_Head L_Body L_Body2 L_Body3 L_Chunk.

Section Package.
Variable CS : Type.
Variable cparse : CS -> bytes -> bool -> CS * (bytes * bytes * option cerr).
Variable max : Z.
Variable rest : bytes.
Variable Inv : body CS -> client -> bytes -> Prop.
Variable End : body CS -> client -> Prop.
Variable more : bytes -> Prop.
Hypothesis step : forall b c left, Inv b c left -> exists d e b' c',
  retrieve cparse max b c = ((d, e), b', c') /\
  bd_full b' = bd_full b /\ bd_pending b' = bd_pending b /\ bd_error b' = bd_error b /\
  ((e = None /\ exists left', left = d ++ left' /\ more left' /\ Inv b' c' left' /\ (csize c' < csize c)%nat) \/
   (e = Some BEof /\ d = left /\ End b' c')).
Hypothesis inv_eof : forall b c left, Inv b c left -> bd_eof b = false.
Hypothesis end_eof : forall b c, End b c -> bd_eof b = true.
Hypothesis end_rest : forall b c, End b c -> stream c = rest.
Hypothesis inv_full : forall b c left f cap, Inv b c left -> Inv (set_full f cap b) c left.
Hypothesis end_full : forall b c f cap, End b c -> End (set_full f cap b) c.
Hypothesis inv_stash : forall b c left p e, Inv b c left -> Inv (set_stash p e b) c left.
Hypothesis end_stash : forall b c p e, End b c -> End (set_stash p e b) c.
Hypothesis inv_alloc : forall b c left, Inv b c left -> bd_chunked b = true \/ (bd_clen b <= max_alloc)%Z.
Hypothesis more_app : forall d t, more t -> more (d ++ t).
Hypothesis more_nonempty : forall t, t <> [] -> more t.

Lemma package : forall text b c, Inv b c text -> bd_pending b = [] -> bd_error b = None ->
  AccessorsDeliver cparse max more text rest b c.
Proof.
  intros text b c HI Hp He. constructor.
  - destruct (bytes_ok CS cparse max Inv End more step inv_eof inv_full end_full inv_alloc _ _ _ HI)
      as (b' & c' & H1 & HE & Hf).
    exists b', c'. split; [assumption|]. split; [eauto|]. unfold body_bytes. rewrite (end_eof _ _ HE), Hf. reflexivity.
  - intros cb. unfold body_callback.
    destruct (callback_loop_ok CS cparse max Inv End more step (loop_fuel c) b c text [] cb HI)
      as (ps & r & b' & c' & H1 & H2); [unfold loop_fuel, csize; lia|].
    exists ps, r, b', c'. split; [exact H1|]. split.
    + destruct H2 as [(-> & <- & HE & _) | (-> & _ & Hf & l & -> & _)]; [left|right]; eauto.
    + intros Hall. destruct H2 as [(-> & _) | (_ & _ & Hf & _)]; [reflexivity|]. rewrite Hall in Hf. discriminate.
  - intros k. destruct (retrieves_ok CS cparse max Inv End more step end_eof k _ _ _ HI)
      as (outs & b' & c' & l & H1 & H2 & _ & H3).
    exists outs, b', c', l. split; [assumption|]. split; [assumption|]. intros Hk.
    destruct H3 as [-> HE]; [unfold csize; lia|]. eauto.
  - intros ns.
    assert (HB : Buffered CS Inv End more b c text).
    { left. split; [assumption|]. exists text. rewrite Hp. split; [reflexivity|]. split; [congruence|assumption]. }
    destruct (Forall_dec (fun n => 0 < n)%nat (fun n => lt_dec 0 n) ns) as [Hpos|Hnp].
    + destruct (le_lt_dec (List.length ns) (rsize CS b c text)) as [Hle|Hgt].
      * destruct (reads_ok CS cparse max Inv End more step inv_stash end_stash more_app more_nonempty ns _ _ _ HB)
          as (outs & b' & c' & l & H1 & H2 & _).
        exists outs, b', c', l. split; [assumption|]. split; [assumption|]. intros _ Hlt.
        unfold rsize in Hle. rewrite He in Hle. unfold csize in Hle. lia.
      * destruct (reads_complete CS cparse max Inv End more step inv_eof end_eof inv_stash end_stash more_app more_nonempty ns _ _ _ HB Hpos Hgt)
          as (outs & b' & c' & H1 & H2 & HE).
        exists outs, b', c', []. split; [assumption|]. split; [assumption|]. eauto.
    + destruct (reads_ok CS cparse max Inv End more step inv_stash end_stash more_app more_nonempty ns _ _ _ HB)
          as (outs & b' & c' & l & H1 & H2 & _).
      exists outs, b', c', l. split; [assumption|]. split; [assumption|]. intros; contradiction.
  - intros ops os b1 c1 Hops.
    assert (HA : At CS Inv End text b c) by (left; exists text, []; auto).
    pose proof (ops_at CS cparse max Inv End more step inv_eof end_eof inv_full end_full inv_stash end_stash inv_alloc
      ops b c text HA os b1 c1 Hops) as HA1.
    destruct (discard_at CS cparse max Inv End more step inv_eof end_eof text b1 c1 HA1) as (b' & c' & H1 & HE).
    exists b', c'. split; [assumption|]. eauto.
Qed.
End Package.

Lemma init_stash : forall CS (b : body CS) r, bd_pending (body_init b r) = [] /\ bd_error (body_init b r) = None.
Proof. intros. unfold body_init. destruct (enc_chunked (r_encoding r)); auto. Qed.

Lemma fixed_delivered : forall CS cparse max (b : body CS) r c text rest,
  FixedRequest max r text -> stream c = text ++ rest ->
  AccessorsDeliver cparse max not_done text rest (body_init b r) c.
Proof.
  intros CS cparse max b r c text rest (H1 & H2 & H3 & H4) Hs.
  destruct (init_stash CS b r) as [Hp He].
  apply (package CS cparse max rest (PInv CS max rest (bd_cs b)) (PEnd CS rest (bd_cs b)) not_done); auto.
  - apply plain_step.
  - apply p_inv_eof.
  - apply p_end_eof.
  - intros b0 c0 H. apply H.
  - intros b0 c0 left H. right. apply H.
  - intros d t Ht E. apply app_eq_nil in E as [_ E]. contradiction.
  - apply p_init; auto.
Qed.

Lemma chunked_delivered : forall CS cparse encoded fresh inside max (b : body CS) r c w text rest,
  DecoderOk CS cparse encoded fresh inside -> fresh (bd_cs b) ->
  ChunkedRequest encoded max r w text -> stream c = w ++ rest ->
  AccessorsDeliver cparse max any_text text rest (body_init b r) c.
Proof.
  intros CS cparse encoded fresh inside max b r c w text rest Hok Hf (H1 & H2 & H3 & H4) Hs.
  destruct (init_stash CS b r) as [Hp He].
  apply (package CS cparse max rest (CInv CS inside max rest) (CEnd CS fresh rest) any_text); auto.
  - eapply chunked_step; eauto.
  - apply c_inv_eof.
  - apply c_end_eof.
  - intros b0 c0 H. apply H.
  - intros b0 c0 left H. left. apply H.
  - intros; exact I.
  - eapply c_init; eauto.
Qed.

(* after the request the decoder is ready for the next chunked body, whatever the handler did *)
Lemma chunked_fresh_again : forall CS cparse encoded fresh inside max (b : body CS) r c w text rest,
  DecoderOk CS cparse encoded fresh inside -> fresh (bd_cs b) ->
  ChunkedRequest encoded max r w text -> stream c = w ++ rest ->
  forall ops os b1 c1, body_ops cparse max ops (body_init b r) c = (os, b1, c1) ->
  exists b' c', body_discard cparse max b1 c1 = (Some None, b', c') /\ stream c' = rest /\ fresh (bd_cs b').
Proof.
  intros CS cparse encoded fresh inside max b r c w text rest Hok Hf (H1 & H2 & H3 & H4) Hs ops os b1 c1 Hops.
  pose (Inv := CInv CS inside max rest). pose (End := CEnd CS fresh rest).
  assert (HI : Inv (body_init b r) c text) by (eapply c_init; eauto).
  assert (HA : At CS Inv End text (body_init b r) c) by (left; exists text, []; auto).
  pose proof (ops_at CS cparse max Inv End any_text
    (chunked_step CS cparse encoded fresh inside Hok max H4 rest)
    (c_inv_eof CS inside max rest) (c_end_eof CS fresh rest) (c_inv_full CS inside max rest) (c_end_full CS fresh rest)
    (c_inv_stash CS inside max rest) (c_end_stash CS fresh rest) (c_inv_alloc CS inside max rest)
    ops (body_init b r) c text HA os b1 c1 Hops) as HA1.
  destruct (discard_at CS cparse max Inv End any_text (chunked_step CS cparse encoded fresh inside Hok max H4 rest)
     (c_inv_eof CS inside max rest) (c_end_eof CS fresh rest) text b1 c1 HA1) as (b' & c' & Hd & HE).
  exists b', c'. split; [assumption|]. split; apply HE.
Qed.
Lemma fixed_fresh_again : forall CS cparse max (b : body CS) r c text rest,
  FixedRequest max r text -> stream c = text ++ rest ->
  forall ops os b1 c1, body_ops cparse max ops (body_init b r) c = (os, b1, c1) ->
  exists b' c', body_discard cparse max b1 c1 = (Some None, b', c') /\ stream c' = rest /\ bd_cs b' = bd_cs b.
Proof.
  intros CS cparse max b r c text rest (H1 & H2 & H3 & H4) Hs ops os b1 c1 Hops.
  pose (Inv := PInv CS max rest (bd_cs b)). pose (End := PEnd CS rest (bd_cs b)).
  assert (HI : Inv (body_init b r) c text) by (apply p_init; auto).
  assert (HA : At CS Inv End text (body_init b r) c) by (left; exists text, []; auto).
  pose proof (ops_at CS cparse max Inv End not_done
    (plain_step CS cparse max rest (bd_cs b))
    (p_inv_eof CS max rest _) (p_end_eof CS rest _) (p_inv_full CS max rest _) (p_end_full CS rest _)
    (p_inv_stash CS max rest _) (p_end_stash CS rest _) (p_inv_alloc CS max rest _)
    ops (body_init b r) c text HA os b1 c1 Hops) as HA1.
  destruct (discard_at CS cparse max Inv End not_done (plain_step CS cparse max rest (bd_cs b))
     (p_inv_eof CS max rest _) (p_end_eof CS rest _) text b1 c1 HA1) as (b' & c' & Hd & HE).
  exists b', c'. split; [assumption|]. split; apply HE.
Qed.

Lemma chunked_over_limit : forall CS cparse encoded fresh inside max (b : body CS) r c w text rest,
  DecoderOk CS cparse encoded fresh inside -> fresh (bd_cs b) ->
  enc_chunked (r_encoding r) = true -> encoded (enc_trailer (r_encoding r)) w text ->
  (0 <= max < len text)%Z -> stream c = w ++ rest ->
  exists b' c', body_bytes cparse max (body_init b r) c = (BRErr BTooLarge, b', c').
Proof.
  intros CS cparse encoded fresh inside max b r c w text rest Hok Hf Hc Hw Hm Hs.
  unfold body_bytes, body_init. rewrite Hc. cbn [bd_eof bd_chunked negb andb].
  eapply (chunked_large CS cparse encoded fresh inside Hok max rest (loop_fuel c) _ c text w); cbn [bd_eof bd_chunked bd_received bd_cs bd_trailer set_full]; auto; try lia.
  - eapply dk_nonempty; eauto.
  - eapply dk_start; eauto.
  - unfold loop_fuel, csize. lia.
Qed.

Lemma broken_reported : forall CS cparse max (b : body CS) r net ev later out w,
  enc_chunked (r_encoding r) = false -> (r_content_length r <= max)%Z -> (r_content_length r <= max_alloc)%Z ->
  Forall (fun x => snd x = None) net -> (len (net_data net) < r_content_length r)%Z ->
  exists b' c', body_bytes cparse max (body_init b r) (Client (net ++ (ev, Some NOther) :: later) [] out w) = (BRErr BNet, b', c').
Proof.
  intros CS cparse max b r net ev later out w Hc Hm Ha Hall Hl.
  pose proof (len_nonneg (net_data net)).
  assert (Hw : wrap_u64 (r_content_length r) = r_content_length r).
  { unfold wrap_u64. apply Z.mod_small. unfold max_alloc, two64 in *. lia. }
  unfold body_bytes, body_init. rewrite Hc, Hw. cbn [bd_eof bd_chunked bd_cap bd_clen].
  replace (r_content_length r >? max_alloc)%Z with false by (symmetry; rewrite Z.gtb_ltb; apply Z.ltb_ge; lia).
  rewrite andb_false_r. unfold loop_fuel. apply broken_loop; cbn [bd_eof bd_chunked bd_left set_full]; auto.
  - cbn [cl_pending cl_net List.length]. enough (net_size net <= net_size (net ++ (ev, Some NOther) :: later))%nat by lia.
    clear. unfold net_size. induction net as [|[d e] net IH]; cbn [app fold_right]; lia.
Qed.

Lemma alloc_panics : forall (b : body unit), (bd_cap b <= 100)%Z ->
  let r := set_content_length 9223372036854775807 new_request in
  let c := new_client [(B "x", None)] [] in
  body_op (fun s _ _ => (s, ([], [], Some CErr))) 100 OBytes (body_init b r) c = (RBytes BRPanic, body_init b r, c).
Proof.
  intros b H. cbn [body_op]. unfold body_bytes, body_init. cbn [enc_chunked r_encoding set_content_length new_request encoding_zero bd_eof bd_chunked bd_cap bd_clen r_content_length negb andb].
  replace (bd_cap b <? 9223372036854775807)%Z with true by (symmetry; apply Z.ltb_lt; lia). reflexivity.
Qed.

Lemma ex_chunked_ok :
  let txt := B "a" ++ CRLF ++ B "0123456789" ++ CRLF ++ B "03" ++ CRLF ++ B "xyz" ++ CRLF ++ B "0" ++ CRLF ++ CRLF in
  let r := set_encoding (Encoding [] [] true false) new_request in
  ChunkedRequest chunked_text 100 r txt (B "0123456789xyz") /\
  let c := new_client (map (fun d => (d, None)) [firstn 7 txt; skipn 7 txt ++ B "GET"]) [] in
  fst (fst (body_bytes ref_parse 100 (body_init (new_body (KSize 0 false)) r) c)) = BROk (B "0123456789xyz") /\
  stream (snd (body_bytes ref_parse 100 (body_init (new_body (KSize 0 false)) r) c)) = B "GET".
Proof.
  cbv zeta. split.
  - unfold ChunkedRequest. split; [reflexivity|]. split; [|split; [vm_compute; discriminate|reflexivity]].
    unfold chunked_text. apply (Ch_more (B "a") (B "0123456789")); try discriminate; [reflexivity|].
    apply (Ch_more (B "03") (B "xyz") _ []); try discriminate; [reflexivity|].
    apply (Ch_last (B "0")); [discriminate|reflexivity].
  - split; reflexivity.
Qed.
