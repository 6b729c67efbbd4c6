From Verif Require Import M_Base L_Base M_Status M_Uri M_KeyValue M_Query S_Head S_KeyValue S_Query L_Uri L_KeyValue.

Lemma pct_app : forall a x, PctDecodes a x -> forall b y, PctDecodes b y -> PctDecodes (a ++ b) (x ++ y).
Proof. induction 1; intros b y Hb; cbn [app]; [exact Hb| |]; econstructor; eauto. Qed.

Lemma form_text_decodes : forall s e, FormText s e -> ~ In x2b s ->
  exists d, PctDecodes e d /\ map plus_to_space d = s /\ (forall c, c <> x2b -> In c d -> In c s).
Proof.
  induction 1 as [|c s e H1 H2 H3 H4 H IH|s e H IH|c h l vh vl s e Hh Hl Hc H IH]; intros Hp.
  - exists []. repeat split; [constructor|]. intros c _ [].
  - destruct IH as (d & D1 & D2 & D3); [intro; apply Hp; right; assumption|].
    exists (c :: d). split; [constructor; assumption|]. split.
    + cbn [map]. rewrite D2. unfold plus_to_space. apply beq_neq in H4. rewrite H4. reflexivity.
    + intros c' Hc' [<-|Hi]; [left; reflexivity|right; apply D3; assumption].
  - destruct IH as (d & D1 & D2 & D3); [intro; apply Hp; right; assumption|].
    exists (x2b :: d). split; [constructor; [discriminate|assumption]|]. split.
    + cbn [map]. rewrite D2. reflexivity.
    + intros c' Hc' [<-|Hi]; [congruence|right; apply D3; assumption].
  - destruct IH as (d & D1 & D2 & D3); [intro; apply Hp; right; assumption|].
    assert (Hcc : byte_of_N (16 * vh + vl) = c) by (rewrite <- Hc; apply byte_of_N_bN).
    exists (c :: d). split; [rewrite <- Hcc; constructor; assumption|]. split.
    + cbn [map]. rewrite D2. unfold plus_to_space.
      destruct (Byte.eqb c x2b) eqn:E; [|reflexivity]. apply beq_eq in E. exfalso. apply Hp. left. exact E.
    + intros c' Hc' [<-|Hi]; [left; reflexivity|right; apply D3; assumption].
Qed.

Lemma scan_key_eq : forall k rest acc, ~ In x3d k -> ~ In x26 k ->
  scan_key (k ++ x3d :: rest) acc = (acc ++ map plus_to_space k, Some (x3d, rest)).
Proof.
  induction k as [|c k IH]; intros rest acc H1 H2; cbn [app scan_key map].
  - rewrite app_nil_r. reflexivity.
  - assert (E1 : Byte.eqb c x3d = false) by (apply beq_neq; intros ->; apply H1; left; reflexivity).
    assert (E2 : Byte.eqb c x26 = false) by (apply beq_neq; intros ->; apply H2; left; reflexivity).
    rewrite E1, E2, IH; [rewrite <- app_assoc; reflexivity| |]; intro; [apply H1|apply H2]; right; assumption.
Qed.
Lemma scan_value_amp : forall v rest acc, ~ In x26 v ->
  scan_value (v ++ x26 :: rest) acc = (acc ++ map plus_to_space v, Some rest).
Proof.
  induction v as [|c v IH]; intros rest acc H; cbn [app scan_value map].
  - rewrite app_nil_r. reflexivity.
  - assert (E : Byte.eqb c x26 = false) by (apply beq_neq; intros ->; apply H; left; reflexivity).
    rewrite E, IH; [rewrite <- app_assoc; reflexivity|]. intro; apply H; right; assumption.
Qed.
Lemma scan_value_end : forall v acc, ~ In x26 v -> scan_value v acc = (acc ++ map plus_to_space v, None).
Proof.
  induction v as [|c v IH]; intros acc H; cbn [scan_value map].
  - rewrite app_nil_r. reflexivity.
  - assert (E : Byte.eqb c x26 = false) by (apply beq_neq; intros ->; apply H; left; reflexivity).
    rewrite E, IH; [rewrite <- app_assoc; reflexivity|]. intro; apply H; right; assumption.
Qed.

Lemma query_key_app : forall fuel k v d1 d2 tail acc, ~ In x3d d1 -> ~ In x26 d1 -> ~ In x26 d2 -> k <> [] ->
  map plus_to_space d1 = k -> map plus_to_space d2 = v ->
  query_key (S fuel) (d1 ++ x3d :: d2 ++ tail) acc =
  match tail with
  | [] => (acc ++ [(k, v)], None)
  | x26 :: rest => query_key fuel rest (acc ++ [(k, v)])
  | _ => query_key (S fuel) (d1 ++ x3d :: d2 ++ tail) acc
  end.
Proof.
  intros fuel k v d1 d2 tail acc H1 H2 H3 Hk Ek Ev.
  destruct tail as [|t tail].
  - cbn [query_key]. destruct (d1 ++ x3d :: d2 ++ []) eqn:E; [destruct d1; discriminate|]. rewrite <- E.
    rewrite scan_key_eq by assumption. cbn [app]. rewrite Ek. destruct k as [|k0 k']; [congruence|].
    rewrite app_nil_r, scan_value_end by assumption. cbn [app]. rewrite Ev. reflexivity.
  - destruct (byte_eq_dec t x26) as [->|Hne].
    + cbn [query_key]. destruct (d1 ++ x3d :: d2 ++ x26 :: tail) eqn:E; [destruct d1; discriminate|]. rewrite <- E.
      rewrite scan_key_eq by assumption. cbn [app]. rewrite Ek. destruct k as [|k0 k']; [congruence|].
      rewrite scan_value_amp by assumption. cbn [app]. rewrite Ev. reflexivity.
    + destruct t; try reflexivity. congruence.
Qed.

Lemma form_query_key : forall l e, FormQuery l e -> Forall plain_entry l ->
  exists d, PctDecodes e d /\ d <> [] /\
    forall fuel acc, (List.length d < fuel)%nat -> query_key fuel d acc = (acc ++ l, None).
Proof.
  induction 1 as [k v ek ev Hk Hv|k v ek ev l e Hk Hv H IH]; intros HF.
  - inversion HF as [|? ? (P1 & P2 & P3 & P4 & P5 & P6) _]; subst. cbn [fst snd] in *.
    destruct (form_text_decodes _ _ Hk P4) as (dk & K1 & K2 & K3).
    destruct (form_text_decodes _ _ Hv P6) as (dv & V1 & V2 & V3).
    exists (dk ++ x3d :: dv). split; [apply pct_app; [exact K1|]; constructor; [discriminate|exact V1]|].
    split; [destruct dk; discriminate|]. intros fuel acc Hf.
    destruct fuel as [|fuel]; [lia|]. pose proof (query_key_app fuel k v dk dv [] acc) as Q.
    rewrite app_nil_r in Q. apply Q; try assumption; intro Hi.
    + apply P2. apply K3; [discriminate|exact Hi].
    + apply P3. apply K3; [discriminate|exact Hi].
    + apply P5. apply V3; [discriminate|exact Hi].
  - inversion HF as [|? ? (P1 & P2 & P3 & P4 & P5 & P6) HF']; subst. cbn [fst snd] in *.
    destruct (form_text_decodes _ _ Hk P4) as (dk & K1 & K2 & K3).
    destruct (form_text_decodes _ _ Hv P6) as (dv & V1 & V2 & V3).
    destruct (IH HF') as (d & D1 & D2 & D3).
    exists (dk ++ x3d :: dv ++ x26 :: d). split.
    { apply pct_app; [exact K1|]. constructor; [discriminate|]. apply pct_app; [exact V1|].
      constructor; [discriminate|exact D1]. }
    split; [destruct dk; discriminate|]. intros fuel acc Hf.
    rewrite app_length in Hf. cbn [List.length] in Hf. rewrite app_length in Hf. cbn [List.length] in Hf.
    destruct fuel as [|fuel]; [lia|].
    rewrite (query_key_app fuel k v dk dv (x26 :: d) acc); try assumption.
    + rewrite D3 by lia. rewrite <- app_assoc. reflexivity.
    + intro Hi. apply P2. apply K3; [discriminate|exact Hi].
    + intro Hi. apply P3. apply K3; [discriminate|exact Hi].
    + intro Hi. apply P5. apply V3; [discriminate|exact Hi].
Qed.

Lemma query_parse_form : forall l e, FormQuery l e -> Forall plain_entry l -> query_parse e = (l, None).
Proof.
  intros l e H HF. destruct (form_query_key l e H HF) as (d & D1 & D2 & D3).
  unfold query_parse. destruct e as [|c e']. { inversion D1; subst; congruence. }
  rewrite (uri_decode_spec _ _ D1). rewrite D3 by lia. reflexivity.
Qed.

Lemma fold_add_pairs : forall ps s, kv_pairs (fold_left (fun s kv => kv_add s (fst kv) (snd kv)) ps s) = kv_pairs s ++ ps.
Proof.
  induction ps as [|[k v] ps IH]; intros s; cbn [fold_left]; [rewrite app_nil_r; reflexivity|].
  rewrite IH. cbn [kv_add kv_pairs fst snd]. rewrite <- app_assoc. reflexivity.
Qed.

Lemma do_parse_fresh : forall q l e, fresh_query q -> query_parse (q_raw q) = (l, e) ->
  exists q', query_do_parse q = (q', e) /\ q_parsed q' = true /\ kv_pairs (q_params q') = l.
Proof.
  intros q l e [H1 H2] E. unfold query_do_parse. rewrite H1, E. eexists. split; [reflexivity|].
  split; [reflexivity|]. cbn [q_params]. rewrite fold_add_pairs, H2. reflexivity.
Qed.
Lemma q_call_parsed : forall q l a, q_parsed q = true -> kv_pairs (q_params q) = l ->
  fst (q_call q a) = q /\ q_right l a (snd (q_call q a)).
Proof.
  intros q l a H1 H2. destruct a as [k|]; unfold q_call, query_get, query_unwrap, query_do_parse; rewrite H1; cbn [fst snd].
  - split; [reflexivity|]. cbn [q_right]. rewrite <- H2. unfold kv_get.
    pose proof (pairs_get_spec (kv_pairs (q_params q)) k) as P. destruct (pairs_get _ k); exact P.
  - split; [reflexivity|]. cbn [q_right]. rewrite H2. reflexivity.
Qed.
Lemma q_calls_parsed : forall as_ q l, q_parsed q = true -> kv_pairs (q_params q) = l ->
  Forall2 (q_right l) as_ (snd (q_calls q as_)).
Proof.
  induction as_ as [|a as_ IH]; intros q l H1 H2; cbn [q_calls]; [constructor|].
  destruct (q_call q a) as [q1 r] eqn:E. destruct (q_calls q1 as_) as [q2 rs] eqn:E2. cbn [snd].
  destruct (q_call_parsed q l a H1 H2) as [F S]. rewrite E in F, S. cbn [fst snd] in F, S. subst q1.
  constructor; [exact S|]. specialize (IH q l H1 H2). rewrite E2 in IH. exact IH.
Qed.
Lemma q_calls_good : forall q l as_, fresh_query q -> query_parse (q_raw q) = (l, None) ->
  Forall2 (q_right l) as_ (snd (q_calls q as_)).
Proof.
  intros q l as_ Hf E. destruct (do_parse_fresh q l None Hf E) as (q' & P1 & P2 & P3).
  destruct as_ as [|a as_]; [constructor|]. cbn [q_calls].
  assert (X : q_call q a = (q', snd (q_call q' a))).
  { destruct (q_call_parsed q' l a P2 P3) as [F S].
    destruct a as [k|]; unfold q_call, query_get, query_unwrap in *; rewrite P1;
      unfold query_do_parse; rewrite P2; reflexivity. }
  rewrite X. pose proof (q_calls_parsed as_ q' l P2 P3) as Y.
  destruct (q_calls q' as_) as [q2 rs]. cbn [snd] in *. constructor; [|exact Y].
  apply q_call_parsed; assumption.
Qed.
Lemma q_first_error : forall q l e a, fresh_query q -> query_parse (q_raw q) = (l, Some e) ->
  reports_error (snd (q_call q a)).
Proof.
  intros q l e a Hf E. destruct (do_parse_fresh q l (Some e) Hf E) as (q' & P1 & P2 & P3).
  destruct a as [k|]; unfold q_call, query_get, query_unwrap; rewrite P1; exact I.
Qed.
Lemma query_set_fresh : forall q raw, (q_parsed q = false -> kv_pairs (q_params q) = []) ->
  fresh_query (query_set q raw) /\ q_raw (query_set q raw) = raw.
Proof. intros q raw H. unfold query_set. destruct (q_parsed q) eqn:E; repeat split. cbn. auto. Qed.
Lemma q_calls_inv : forall as_ q, (q_parsed q = false -> kv_pairs (q_params q) = []) ->
  let q' := fst (q_calls q as_) in q_parsed q' = false -> kv_pairs (q_params q') = [].
Proof.
  induction as_ as [|a as_ IH]; intros q H; cbn [q_calls]; [exact H|].
  destruct (q_call q a) as [q1 r] eqn:E. specialize (IH q1).
  destruct (q_calls q1 as_) as [q2 rs]. cbn [fst] in *. apply IH.
  assert (X : q1 = fst (query_do_parse q)).
  { destruct a as [k|]; unfold q_call, query_get, query_unwrap in E;
      destruct (query_do_parse q) as [q' [e|]]; injection E as <- _; reflexivity. }
  subst q1. unfold query_do_parse. destruct (q_parsed q) eqn:P; cbn [fst]; [congruence|].
  destruct (query_parse (q_raw q)) as [ps e]. cbn [fst q_parsed]. discriminate.
Qed.

(* parsing in place never changes the size of the raw query *)
Lemma raw_after_length : forall raw, List.length (query_raw_after raw) = List.length raw.
Proof.
  intros raw. unfold query_raw_after. destruct (uri_decode_mem_ok raw (List.length raw) (le_n _)) as (mem & res & -> & Hl & _ & Hr).
  rewrite firstn_all in Hr. destruct (uri_decode raw) as [d|]; [|subst res; exact Hl]. destruct Hr as (j & -> & Hj & Hd). cbn zeta. rewrite Hd.
  assert (Ld : List.length d = j) by (rewrite <- Hd; rewrite slice_length; lia).
  set (sc := (List.length d - _)%nat). assert (Hs : (sc <= List.length d)%nat) by (unfold sc; lia).
  rewrite !app_length, map_length, !firstn_length, skipn_length. lia.
Qed.
Lemma raw_size : forall l q, List.length (query_raw (fst (q_calls q l))) = List.length (query_raw q).
Proof.
  induction l as [|a l IH]; intros q; [reflexivity|]. cbn [q_calls]. destruct (q_call q a) as [q1 r] eqn:E. destruct (q_calls q1 l) as [q2 rs] eqn:E2. cbn [fst].
  specialize (IH q1). rewrite E2 in IH. cbn [fst] in IH. rewrite IH. unfold query_raw.
  assert (D : List.length (q_raw (fst (query_do_parse q))) = List.length (q_raw q)).
  { unfold query_do_parse. destruct (q_parsed q); [reflexivity|]. destruct (query_parse (q_raw q)). cbn [fst q_raw]. apply raw_after_length. }
  destruct a as [k|]; unfold q_call, query_get, query_unwrap in E; destruct (query_do_parse q) as [q' e]; cbn [fst] in D.
  - destruct e; injection E as <- <-; exact D.
  - injection E as <- <-. exact D.
Qed.
