(* Lemmas behind P_Exact4.v. *)
From Verif Require Import M_Base M_Status M_Method M_Proto M_KeyValue M_Query M_Request M_Client M_Body M_Tools
  S_KeyValue S_Query S_Tools S_Exact2 S_Dump L_Base L_KeyValue L_Query L_Query2 L_Tools L_Exact2 P_Query.

Lemma query_after : forall q raw l e before, (q_parsed q = false -> kv_pairs (q_params q) = []) -> Reading raw l e ->
  let q1 := fst (q_calls (query_set q raw) before) in
  exists q2, query_do_parse q1 = (q2, match before with [] => e | _ => None end) /\ q_parsed q2 = true /\ kv_pairs (q_params q2) = l.
Proof.
  intros q raw l e before H R q1. destruct (query_set_fresh q raw H) as [F1 F2]. pose proof R as R'. apply reading_parse in R'. rewrite <- F2 in R'.
  destruct (do_parse_fresh _ l e F1 R') as (q' & P1 & P2 & P3). destruct before as [|a before]; [exists q'; auto|].
  assert (K : forall bs x, q_parsed x = true -> kv_pairs (q_params x) = l -> q_parsed (fst (q_calls x bs)) = true /\ kv_pairs (q_params (fst (q_calls x bs))) = l).
  { clear - raw. induction bs as [|b bs IH]; intros x X1 X2; [auto|]. cbn [q_calls].
    assert (E : fst (q_call x b) = x) by (destruct b; unfold q_call, query_get, query_unwrap, query_do_parse; rewrite X1; reflexivity).
    destruct (q_call x b) as [x1 r]. cbn [fst] in E. subst x1. specialize (IH x X1 X2). destruct (q_calls x bs) as [x2 rs]. exact IH. }
  assert (E : q1 = fst (q_calls q' before)).
  { subst q1. cbn [q_calls].
    assert (E : fst (q_call (query_set q raw) a) = q').
    { destruct a; unfold q_call, query_get, query_unwrap; rewrite P1; [destruct e|]; reflexivity. }
    destruct (q_call (query_set q raw) a) as [x1 r]. cbn [fst] in E. subst x1. destruct (q_calls q' before). reflexivity. }
  destruct (K before q' P2 P3) as [K1 K2]. rewrite <- E in K1, K2. exists q1. unfold query_do_parse. rewrite K1. auto.
Qed.
Lemma dump_exactly : forall CS (cparse : CS -> bytes -> bool -> CS * (bytes * bytes * option cerr)) max r q raw before l e (b : body CS) c res b' c',
  (q_parsed q = false -> kv_pairs (q_params q) = []) -> Reading raw l e -> r_query r = fst (q_calls (query_set q raw) before) ->
  body_bytes cparse max b c = (res, b', c') ->
  exists q', (forall accesses, Answers l (match raw, before with [], [] => e | _, _ => None end) accesses (snd (q_calls q' accesses))) /\
  dump cparse max r b c =
    match told raw before e with
    | Some err => (DOk [] (Some (DQuery err)), set_query q' r, b, c)
    | None =>
        match r_proto r with
        | PUnknown => (DPanic, set_query q' r, b, c)
        | _ =>
            let head := dump_head r (dumped_query raw l) in
            match res with
            | BROk d => (DOk (head ++ d) None, set_query q' r, b', c')
            | BRErr err => (DOk head (Some (DBody err)), set_query q' r, b', c')
            | BRPanic => (DPanic, set_query q' r, b', c')
            | BRStuck => (DStuck, set_query q' r, b', c')
            end
        end
    end.
Proof.
  intros CS cparse max r q raw before l e b c res b' c' H R HQ HB.
  assert (HL : List.length (q_raw (r_query r)) = List.length raw).
  { rewrite HQ. pose proof (C16_raw_size before (query_set q raw)) as X. unfold query_raw in X. rewrite X. destruct (query_set_fresh q raw H) as [_ F2]. rewrite F2. reflexivity. }
  destruct (query_after q raw l e before H R) as (q2 & D1 & D2 & D3). rewrite <- HQ in D1.
  assert (A2 : forall accesses, Answers l None accesses (snd (q_calls q2 accesses))) by (intros; constructor; apply q_calls_parsed; assumption).
  assert (PS : match r_proto r with PUnknown => proto_string (r_proto r) = [] | _ => exists p0 p, proto_string (r_proto r) = p0 :: p /\ drop_last (p0 :: p) = version_name (r_proto r) end)
    by (destruct (r_proto r); try reflexivity; eexists _, _; split; reflexivity).
  destruct raw as [|c0 raw].
  - exists (r_query r). destruct (q_raw (r_query r)) eqn:QR; [|discriminate HL].
    split.
    + destruct before as [|a before]; intros accesses; [|].
      * rewrite HQ. apply reading_answers; assumption.
      * destruct (q_parsed (r_query r)) eqn:QP.
        -- unfold query_do_parse in D1. rewrite QP in D1. injection D1 as <-. apply A2.
        -- exfalso. destruct (query_set_fresh q [] H) as [F1 F2]. revert QP. rewrite HQ. cbn [q_calls].
           destruct (do_parse_fresh _ l e F1 (eq_ind_r (fun x => query_parse x = (l, e)) (reading_parse _ _ _ R) F2)) as (q' & P1 & P2 & P3).
           assert (E : q_parsed (fst (q_call (query_set q []) a)) = true) by (destruct a; unfold q_call, query_get, query_unwrap; rewrite P1; [destruct e|]; exact P2).
           destruct (q_call (query_set q []) a) as [x1 rr]. cbn [fst] in E. revert x1 E.
           assert (K : forall bs x, q_parsed x = true -> q_parsed (fst (q_calls x bs)) = true).
           { clear. induction bs as [|b bs IH]; intros x X; [exact X|]. cbn [q_calls].
             assert (E : fst (q_call x b) = x) by (destruct b; unfold q_call, query_get, query_unwrap, query_do_parse; rewrite X; reflexivity).
             destruct (q_call x b) as [x1 r]. cbn [fst] in E. subst x1. specialize (IH x X). destruct (q_calls x bs) as [x2 rs]. exact IH. }
           intros x1 E. specialize (K before x1 E). destruct (q_calls x1 before) as [x2 rs]. cbn [fst] in *. rewrite K. discriminate.
    + unfold dump. rewrite QR. unfold told. cbn beta iota zeta. replace (set_query (r_query r) r) with r by (destruct r; reflexivity).
      destruct (r_proto r) eqn:EP; [cbn; reflexivity|..]; destruct PS as (p0 & p & -> & DL); rewrite HB; rewrite DL;
        unfold dump_head, dumped_query, target_text; rewrite EP, app_nil_r;
        assert (E : concat (map dump_header (kv_pairs (r_headers r))) = concat (map header_line (kv_pairs (r_headers r)))) by reflexivity;
        rewrite E; destruct res; rewrite <- ?app_assoc; reflexivity.
  - exists q2. split; [destruct before; exact A2|]. unfold dump, query_unwrap. destruct (q_raw (r_query r)) eqn:QR; [discriminate HL|]. rewrite D1.
    unfold told. rewrite D3. destruct before as [|a before]; [destruct e as [err|]; [reflexivity|]|];
      destruct (r_proto r) eqn:EP; try (cbn; reflexivity); destruct PS as (p0 & p & -> & DL); rewrite HB; rewrite DL;
        rewrite drop_ampersand_params; unfold dump_head, dumped_query, target_text; rewrite EP;
        assert (E : concat (map dump_header (kv_pairs (r_headers r))) = concat (map header_line (kv_pairs (r_headers r)))) by reflexivity;
        rewrite E; destruct res; rewrite <- ?app_assoc; reflexivity.
Qed.
