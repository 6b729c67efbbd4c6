(* Lemmas behind the exact theorem on httptest.Parse. *)
From Verif Require Import M_Base M_Method M_KeyValue M_HeaderValue M_Tools S_KeyValue S_Head S_Response S_Tools S_Split S_ToolParse
  L_Base L_KeyValue L_Tables L_Tools L_Refuse L_Uri.

(* ---- strings.Cut ---- *)
Lemma index_first : forall s sub i, index_sub s sub = Some i -> forall a b, s = a ++ sub ++ b -> (i <= List.length a)%nat.
Proof.
  induction s as [|x s IH]; intros sub i H a b E; rewrite index_sub_eq in H.
  - destruct (has_prefix [] sub); [injection H as <-; lia|discriminate H].
  - destruct (has_prefix (x :: s) sub) eqn:P; [injection H as <-; lia|]. destruct (index_sub s sub) as [j|] eqn:Ej; [|discriminate H]. injection H as <-.
    destruct a as [|y a]; [exfalso; assert (has_prefix (x :: s) sub = true) by (apply has_prefix_iff; exists b; exact E); congruence|].
    cbn [app] in E. injection E as _ E. specialize (IH sub j Ej a b E). cbn. lia.
Qed.
Lemma cut_spec : forall s sep, match cut_sub s sep with
  | (a, b, true) => CutAt s sep a b
  | (a, b, false) => a = s /\ b = [] /\ ~ Occurs sep s
  end.
Proof.
  intros s sep. unfold cut_sub. destruct (index_sub s sep) as [i|] eqn:E.
  - destruct (index_sub_some _ _ _ E) as (a & b & Es & La). pose proof (index_first _ _ _ E) as F. subst i.
    assert (Ea : firstn (List.length a) s = a) by (rewrite Es, firstn_app, firstn_all, Nat.sub_diag; cbn; apply app_nil_r).
    assert (Eb : skipn (List.length a + List.length sep) s = b).
    { rewrite Es, app_assoc. rewrite <- app_length. rewrite skipn_app, skipn_all, Nat.sub_diag. reflexivity. }
    rewrite Ea, Eb. split; [exact Es|]. exact F.
  - split; [reflexivity|]. split; [reflexivity|]. apply index_sub_none. exact E.
Qed.
Lemma cut_unique : forall s sep a b a' b', CutAt s sep a b -> CutAt s sep a' b' -> a = a' /\ b = b'.
Proof.
  intros s sep a b a' b' [H F] [H' F']. pose proof (F _ _ H') as L1. pose proof (F' _ _ H) as L2.
  assert (L : List.length a = List.length a') by lia. rewrite H in H'. pose proof (app_eq_len _ _ _ _ _ H' L) as T. rewrite <- T in H'. apply app_inv_tail in H'. split; [exact H'|].
  exact (app_inv_head _ _ _ T).
Qed.
Lemma cut_occurs : forall s sep a b, CutAt s sep a b -> Occurs sep s.
Proof. intros s sep a b [H _]. exists a, b. exact H. Qed.
Lemma lacks_not : forall s sep a b, CutAt s sep a b -> b <> [] -> ~ Lacks s sep.
Proof. intros s sep a b H N [L|[a' H']]; [exact (L (cut_occurs _ _ _ _ H))|]. destruct (cut_unique _ _ _ _ _ _ H H') as [_ K]. exact (N K). Qed.

(* ---- strconv.Atoi ---- *)
Lemma dec_fold_none : forall l, fold_left (fun a c => match a, dec_digit c with Some n, Some v => Some (10 * n + v)%N | _, _ => None end) l None = None.
Proof. induction l as [|c l IH]; [reflexivity|exact IH]. Qed.
Lemma digits_dec : forall ds a, (0 <= a)%Z -> digits_value ds a =
  option_map Z.of_N (fold_left (fun a c => match a, dec_digit c with Some n, Some v => Some (10 * n + v)%N | _, _ => None end) ds (Some (Z.to_N a))).
Proof.
  induction ds as [|c ds IH]; intros a Ha; cbn [digits_value fold_left option_map]; [rewrite Z2N.id by exact Ha; reflexivity|].
  unfold is_digit. unfold dec_digit at 2. destruct ((48 <=? bN c)%N && (bN c <=? 57)%N) eqn:E; [|rewrite dec_fold_none; reflexivity].
  apply andb_prop in E. destruct E as [E1 E2]. apply N.leb_le in E1. apply N.leb_le in E2. unfold bZ, bN in *. rewrite IH by lia. do 3 f_equal. lia.
Qed.
Lemma atoi_spec : forall s v, atoi s = Some v <-> IntegerText s v.
Proof.
  intros s v.
  assert (G : forall (neg : bool) (d : bytes), (match d with [] => None | _ => match digits_value d 0 with
         | Some n => let v := if neg then (- n)%Z else n in if (- two63 <=? v)%Z && (v <? two63)%Z then Some v else None | None => None end end) = Some v
     <-> exists n, dec_number d = Some n /\ v = (if neg then (- Z.of_N n)%Z else Z.of_N n) /\ (- two63 <= v < two63)%Z).
  { intros neg d. destruct d as [|c d]; [split; [discriminate|intros (n & H & _); discriminate H]|]. unfold dec_number. rewrite digits_dec by lia. change (Z.to_N 0) with 0%N.
    destruct (fold_left _ (c :: d) (Some 0%N)) as [n|]; cbn [option_map]; [|split; [discriminate|intros (n & H & _); discriminate H]].
    cbv zeta. split.
    - intros H. exists n. split; [reflexivity|]. destruct (_ && _) eqn:E in H; [|discriminate H]. injection H as H. subst v. split; [reflexivity|].
      apply andb_prop in E. destruct E as [E1 E2]. apply Z.leb_le in E1. apply Z.ltb_lt in E2. lia.
    - intros (n' & H1 & H2 & H3). injection H1 as <-. rewrite <- H2. rewrite (proj2 (Z.leb_le _ _)) by lia. rewrite (proj2 (Z.ltb_lt _ _)) by lia. reflexivity. }
  split.
  - intros H. unfold atoi in H. destruct s as [|c s].
    + discriminate H.
    + destruct (byte_eq_dec c x2b) as [->|N1].
      * apply (G false s) in H. destruct H as (n & H1 & H2 & H3). exists (B "+"), s, n. split; [reflexivity|]. split; [exact H1|]. split; [|exact H3]. left. split; [right; reflexivity|exact H2].
      * destruct (byte_eq_dec c x2d) as [->|N2].
        -- apply (G true s) in H. destruct H as (n & H1 & H2 & H3). exists (B "-"), s, n. split; [reflexivity|]. split; [exact H1|]. split; [|exact H3]. right. split; [reflexivity|exact H2].
        -- assert (H' : (match c :: s with [] => None | _ => match digits_value (c :: s) 0 with
             | Some n => let v := n in if (- two63 <=? v)%Z && (v <? two63)%Z then Some v else None | None => None end end) = Some v)
             by (destruct c; try congruence; exact H).
           apply (G false (c :: s)) in H'. destruct H' as (n & H1 & H2 & H3). exists [], (c :: s), n. split; [reflexivity|]. split; [exact H1|]. split; [|exact H3].
           left. split; [left; reflexivity|exact H2].
  - intros (sign & ds & n & -> & Hn & Hs & Hr). destruct Hs as [[[->| ->] Hv]|[-> Hv]].
    + cbn [app]. assert (E : atoi ds = match ds with [] => None | _ => match digits_value ds 0 with
             | Some n => let v := n in if (- two63 <=? v)%Z && (v <? two63)%Z then Some v else None | None => None end end).
      { destruct ds as [|c ds]; [reflexivity|]. unfold dec_number in Hn. cbn [fold_left] in Hn.
        destruct (byte_eq_dec c x2b) as [->|N1]; [change (dec_digit x2b) with (@None N) in Hn; rewrite dec_fold_none in Hn; discriminate Hn|].
        destruct (byte_eq_dec c x2d) as [->|N2]; [change (dec_digit x2d) with (@None N) in Hn; rewrite dec_fold_none in Hn; discriminate Hn|].
        unfold atoi. destruct c; try reflexivity; congruence. }
      rewrite E. apply (G false ds). exists n. auto.
    + change (atoi (B "+" ++ ds)) with (match ds with [] => None | _ => match digits_value ds 0 with
             | Some n => let v := n in if (- two63 <=? v)%Z && (v <? two63)%Z then Some v else None | None => None end end).
      apply (G false ds). exists n. auto.
    + change (atoi (B "-" ++ ds)) with (match ds with [] => None | _ => match digits_value ds 0 with
             | Some n => let v := (- n)%Z in if (- two63 <=? v)%Z && (v <? two63)%Z then Some v else None | None => None end end).
      apply (G true ds). exists n. auto.
Qed.

(* ---- the header lines ---- *)
Lemma lines_spec : forall fuel raw h, (List.length raw < fuel)%nat ->
  exists x, parse_lines fuel raw h = Some x /\
    match x with
    | inl e => FieldLines raw (inl e)
    | inr (h', text) => exists l, FieldLines raw (inr (l, text)) /\ h' = fold_left (fun s p => kv_add s (fst p) (snd p)) l h
    end.
Proof.
  induction fuel as [|n IH]; intros raw h L; [lia|]. cbn [parse_lines]. pose proof (cut_spec raw CRLF) as C. destruct (cut_sub raw CRLF) as [[line rest] found].
  destruct found.
  - destruct line as [|c line].
    + destruct C as [-> _]. eexists. split; [reflexivity|]. exists []. split; [apply Fl_end|reflexivity].
    + pose proof (cut_spec (c :: line) (B ": ")) as K. destruct (cut_sub (c :: line) (B ": ")) as [[k v] ok]. destruct ok.
      * destruct (IH rest (kv_add h k v)) as (x & E & Hx).
        { destruct C as [-> _]. rewrite !app_length in L. cbn in L. lia. }
        exists x. split; [exact E|]. destruct x as [e|[h' text]].
        -- eapply Fl_later; [exact C|discriminate|exact K|exact Hx].
        -- destruct Hx as (l & Hl & ->). exists ((k, v) :: l). split; [|reflexivity]. eapply Fl_field; [exact C|discriminate|exact K|exact Hl].
      * eexists. split; [reflexivity|]. eapply Fl_no_value; [exact C|discriminate|apply K].
  - destruct C as (-> & -> & N). destruct raw as [|c raw].
    + eexists. split; [reflexivity|]. exists []. split; [apply Fl_nothing|reflexivity].
    + eexists. split; [reflexivity|]. apply Fl_no_break; [discriminate|exact N].
Qed.
Lemma starts_cut : forall rest, CutAt (CRLF ++ rest) CRLF [] rest.
Proof. intros rest. split; [reflexivity|]. intros. cbn. lia. Qed.
Lemma lines_unique : forall raw u, FieldLines raw u -> forall u', FieldLines raw u' -> u = u'.
Proof.
  assert (E0 : forall sep, CutAt [] (sep) [] [] -> sep = []) by (intros sep [H _]; destruct sep; [reflexivity|discriminate H]).
  assert (Nn : forall line rest, ~ CutAt [] CRLF line rest) by (intros line rest [H _]; destruct line; discriminate H).
  intros raw u H. induction H as [rest| |raw line rest k v l text C N K H IH|raw line rest k v e C N K H IH|raw line rest C N K|raw N K]; intros u' H'.
  - pose proof (starts_cut rest) as S. inversion H' as [r E|E9|? line' ? ? ? ? ? C' N'|? line' ? ? ? ? C' N'|? line' ? C' N'|? N' K']; subst.
    + reflexivity.
    + destruct (cut_unique _ _ _ _ _ _ S C') as [<- _]. congruence.
    + destruct (cut_unique _ _ _ _ _ _ S C') as [<- _]. congruence.
    + destruct (cut_unique _ _ _ _ _ _ S C') as [<- _]. congruence.
    + destruct (K' (cut_occurs _ _ _ _ S)).
  - inversion H' as [r E|E9|? line' ? ? ? ? ? C' N'|? line' ? ? ? ? C' N'|? line' ? C' N'|? N' K']; subst; try reflexivity; try (destruct (Nn _ _ C')); congruence.
  - inversion H' as [r E|E9|? line' rest' k' v' l' text' C' N' K' H''|? line' rest' k' v' e' C' N' K' H''|? line' ? C' N' K'|? N' K']; subst.
    + destruct (cut_unique _ _ _ _ _ _ C (starts_cut r)) as [-> _]. congruence.
    + destruct (Nn _ _ C).
    + destruct (cut_unique _ _ _ _ _ _ C C') as [<- <-]. destruct (cut_unique _ _ _ _ _ _ K K') as [<- <-]. apply IH in H''. congruence.
    + destruct (cut_unique _ _ _ _ _ _ C C') as [<- <-]. apply IH in H''. congruence.
    + destruct (cut_unique _ _ _ _ _ _ C C') as [<- <-]. destruct (K' (cut_occurs _ _ _ _ K)).
    + destruct (K' (cut_occurs _ _ _ _ C)).
  - inversion H' as [r E|E9|? line' rest' k' v' l' text' C' N' K' H''|? line' rest' k' v' e' C' N' K' H''|? line' ? C' N' K'|? N' K']; subst.
    + destruct (cut_unique _ _ _ _ _ _ C (starts_cut r)) as [-> _]. congruence.
    + destruct (Nn _ _ C).
    + destruct (cut_unique _ _ _ _ _ _ C C') as [<- <-]. apply IH in H''. congruence.
    + destruct (cut_unique _ _ _ _ _ _ C C') as [<- <-]. apply IH in H''. congruence.
    + destruct (cut_unique _ _ _ _ _ _ C C') as [<- <-]. destruct (K' (cut_occurs _ _ _ _ K)).
    + destruct (K' (cut_occurs _ _ _ _ C)).
  - inversion H' as [r E|E9|? line' rest' k' v' l' text' C' N' K' H''|? line' rest' k' v' e' C' N' K' H''|? line' ? C' N' K'|? N' K']; subst.
    + destruct (cut_unique _ _ _ _ _ _ C (starts_cut r)) as [-> _]. congruence.
    + destruct (Nn _ _ C).
    + destruct (cut_unique _ _ _ _ _ _ C C') as [<- <-]. destruct (K (cut_occurs _ _ _ _ K')).
    + destruct (cut_unique _ _ _ _ _ _ C C') as [<- <-]. destruct (K (cut_occurs _ _ _ _ K')).
    + reflexivity.
    + destruct (K' (cut_occurs _ _ _ _ C)).
  - inversion H' as [r E|E9|? line' rest' k' v' l' text' C' N' K' H''|? line' rest' k' v' e' C' N' K' H''|? line' ? C' N' K'|? N' K']; subst; try congruence;
      first [destruct (K (cut_occurs _ _ _ _ C'))|destruct (K (cut_occurs _ _ _ _ (starts_cut _)))].
Qed.

(* ---- the length ---- *)
Lemma absent_values : forall l k, absent l k <-> all_values l k = [].
Proof.
  intros l k. split; [intros H; apply values_absent; exact H|]. intros E k1 v1 Hin K. exact (values_present l k k1 v1 Hin K E).
Qed.
Lemma body_says : forall l h text, kv_pairs h = l ->
  let '(h1, vs) := kv_values_of h (B "content-length") in
  let length := match get_content_length (match vs with Some l => l | None => [] end) with
                | Some (Some n) => inr n
                | Some None => inl TBadLength
                | None => if beqb (kv_value h1 (B "connection")) (B "close") then inr (len text) else inl TNoLength
                end in
  kv_pairs h1 = l /\
  BodySays l text (match length with inl e => Some e | inr n => if (n =? len text)%Z then None else Some TWrongLength end).
Proof.
  intros l h text <-. pose proof (values_or_nil_spec h (B "content-length")) as V. unfold values_or_nil in V.
  destruct (kv_values_of h (B "content-length")) as [h1 vs] eqn:E. cbn [snd] in V.
  assert (P : kv_pairs h1 = kv_pairs h) by (unfold kv_values_of in E; injection E as <- _; reflexivity).
  cbv zeta. split; [exact P|]. rewrite V. destruct (all_values (kv_pairs h) (B "content-length")) as [|v [|v2 vs2]] eqn:A; cbn [get_content_length].
  - apply absent_values in A. unfold kv_value, kv_value_or, kv_get. rewrite P. pose proof (pairs_get_spec (kv_pairs h) (B "connection")) as G.
    destruct (pairs_get (kv_pairs h) (B "connection")) as [v|] eqn:Eg.
    + destruct (beqb v (B "close")) eqn:Ev.
      * apply beqb_eq in Ev. subst v. rewrite Z.eqb_refl. apply Bs_close; assumption.
      * apply Bs_none; [exact A|]. intros F. destruct F as (a & k & b & El & Kk & F). destruct G as (a' & k' & b' & El' & Kk' & F').
        assert (v = B "close").
        { rewrite El in El'. clear - El' Kk Kk' F F'. revert a' El' F'. induction a as [|[k0 v0] a IH]; intros a' El' F'; destruct a' as [|[k1 v1] a']; cbn [app] in El'.
          - injection El'. congruence.
          - injection El' as -> -> _. exfalso. exact (F' _ _ (or_introl eq_refl) Kk).
          - injection El' as -> -> _. exfalso. exact (F _ _ (or_introl eq_refl) Kk').
          - injection El' as _ _ El'. apply (IH (fun x y Hin => F x y (or_intror Hin)) a' El' (fun x y Hin => F' x y (or_intror Hin))). }
        subst v. vm_compute in Ev. discriminate Ev.
    + change (beqb [] (B "close")) with false. apply Bs_none; [exact A|]. intros (a & k & b & El & Kk & _). apply (G k (B "close")); [rewrite El; apply in_or_app; right; left; reflexivity|exact Kk].
  - destruct (atoi v) as [n|] eqn:Ea.
    + apply atoi_spec in Ea. destruct (Z.eqb_spec n (len text)) as [->|Ne]; [eapply Bs_length; [exact A|exact Ea]|eapply Bs_wrong; [exact A|exact Ea|exact Ne]].
    + eapply Bs_bad; [exact A|]. intros n Hn. apply atoi_spec in Hn. congruence.
  - apply Bs_many. rewrite A. cbn. lia.
Qed.
Lemma integer_unique : forall s v v', IntegerText s v -> IntegerText s v' -> v = v'.
Proof. intros s v v' H H'. apply atoi_spec in H. apply atoi_spec in H'. congruence. Qed.
Lemma body_unique : forall l text u u', BodySays l text u -> BodySays l text u' -> u = u'.
Proof.
  intros l text u u' H H'. destruct H as [v A I|A F|v n A I Ne|v A I|A|A F]; destruct H' as [v' A' I'|A' F'|v' n' A' I' Ne'|v' A' I'|A'|A' F']; try reflexivity;
    try (apply absent_values in A); try (apply absent_values in A'); try congruence;
    try (rewrite A in A'; first [discriminate A'|injection A' as <-]); try (rewrite A' in A; discriminate A); try (cbn in *; lia);
    try (rewrite A' in A; cbn in A; lia); try (cbn in A'; lia).
  all: first [contradiction|destruct (I' _ I)|destruct (I _ I')|pose proof (integer_unique _ _ _ I I'); congruence|rewrite A in A'; cbn in A'; lia].
Qed.

Lemma parse_says : forall raw, exists v u, tool_parse raw = Some v /\ Returned v u /\ ToolSays raw u.
Proof.
  intros raw. unfold tool_parse. pose proof (cut_spec raw (B " ")) as C1. destruct (cut_sub raw (B " ")) as [[m a] ok1].
  destruct ok1; cbn [negb orb]; [|exists (inl TNoMethod), (inl TNoMethod); split; [reflexivity|]; split; [reflexivity|]; apply Ts_method; left; apply C1].
  destruct (beqb a []) eqn:Ea.
  { apply beqb_eq in Ea. subst a. exists (inl TNoMethod), (inl TNoMethod). split; [reflexivity|]. split; [reflexivity|]. apply Ts_method. right. exists m. exact C1. }
  assert (Na : a <> []) by (intros ->; discriminate Ea).
  pose proof (cut_spec a (B " ")) as C2. destruct (cut_sub a (B " ")) as [[p b] ok2].
  destruct ok2; cbn [negb orb]; [|exists (inl TNoPath), (inl TNoPath); split; [reflexivity|]; split; [reflexivity|]; eapply Ts_path; [exact C1|exact Na|left; apply C2]].
  destruct (beqb b []) eqn:Eb.
  { apply beqb_eq in Eb. subst b. exists (inl TNoPath), (inl TNoPath). split; [reflexivity|]. split; [reflexivity|]. eapply Ts_path; [exact C1|exact Na|right; exists p; exact C2]. }
  assert (Nb : b <> []) by (intros ->; discriminate Eb).
  pose proof (cut_spec b CRLF) as C3. destruct (cut_sub b CRLF) as [[pr c] ok3].
  destruct ok3; cbn [negb orb]; [|exists (inl TNoCRLF), (inl TNoCRLF); split; [reflexivity|]; split; [reflexivity|]; eapply Ts_proto; [exact C1|exact C2|exact Nb|left; apply C3]].
  destruct (beqb c []) eqn:Ec.
  { apply beqb_eq in Ec. subst c. exists (inl TNoCRLF), (inl TNoCRLF). split; [reflexivity|]. split; [reflexivity|]. eapply Ts_proto; [exact C1|exact C2|exact Nb|right; exists pr; exact C3]. }
  assert (Nc : c <> []) by (intros ->; discriminate Ec).
  destruct (lines_spec (S (List.length c)) c kv_new) as (x & -> & Hx); [lia|]. destruct x as [e|[h text]].
  - exists (inl e), (inl e). split; [reflexivity|]. split; [reflexivity|]. eapply Ts_lines; [exact C1|exact C2|exact C3|exact Nc|exact Hx].
  - destruct Hx as (l & Hl & Eh). assert (Ep : kv_pairs h = l) by (rewrite Eh, add_all_pairs; reflexivity).
    pose proof (body_says l h text Ep) as Bd. destruct (kv_values_of h (B "content-length")) as [h1 vs]. cbv zeta in *. destruct Bd as [P1 Bd].
    destruct (match get_content_length _ with Some (Some n) => inr n | Some None => inl TBadLength | None => _ end) as [e|n].
    + exists (inl e), (inl e). split; [reflexivity|]. split; [reflexivity|]. eapply Ts_body; [exact C1|exact C2|exact C3|exact Nc|exact Hl|exact Bd].
    + destruct (n =? len text)%Z.
      * eexists. exists (inr (TParts m p pr l text)). split; [reflexivity|]. split.
        -- cbn [Returned tp_method tp_path tp_proto tp_fields tp_text t_method t_path t_proto t_headers t_body]. split; [|auto].
           destruct (in_dec (list_eq_dec byte_eq_dec) m method_names) as [I|N]; [left|right; split; [exact N|apply method_unknown; exact N]]. split; [exact I|].
           unfold method_names in I. cbn [In] in I. repeat (destruct I as [<-|I]; [reflexivity|]). contradiction.
        -- eapply Ts_request; [exact C1|exact C2|exact C3|exact Nc|exact Hl|exact Bd].
      * exists (inl TWrongLength), (inl TWrongLength). split; [reflexivity|]. split; [reflexivity|]. eapply Ts_body; [exact C1|exact C2|exact C3|exact Nc|exact Hl|exact Bd].
Qed.
Ltac same_cut := match goal with
  | A : CutAt ?s ?sep ?a ?b, A' : CutAt ?s ?sep ?a' ?b' |- _ =>
      lazymatch a' with a => fail | _ => idtac end; destruct (cut_unique _ _ _ _ _ _ A A') as [? ?]; subst a' b'; clear A'
  end.
Lemma cut_nonempty : forall s sep a b, CutAt s sep a b -> sep <> [] -> s <> [].
Proof. intros s sep a b [H _] N E. rewrite E in H. symmetry in H. apply app_eq_nil in H. destruct H as [_ H]. apply app_eq_nil in H. tauto. Qed.
Lemma says_unique : forall raw u u', ToolSays raw u -> ToolSays raw u' -> u = u'.
Proof.
  assert (S1 : [SP] <> []) by discriminate. assert (S2 : CRLF <> []) by discriminate.
  intros raw u u' H H'. destruct H as [raw L1|raw m a C1 N1 L1|raw m a p b C1 C2 N1 L1|raw m a p b v c e C1 C2 C3 N1 F1|raw m a p b v c l text e C1 C2 C3 N1 F1 B1|raw m a p b v c l text C1 C2 C3 N1 F1 B1];
  inversion H' as [? L2|? m' a' D1 N2 L2|? m' a' p' b' D1 D2 N2 L2|? m' a' p' b' v' c' e' D1 D2 D3 N2 F2|? m' a' p' b' v' c' l' text' e' D1 D2 D3 N2 F2 B2|? m' a' p' b' v' c' l' text' D1 D2 D3 N2 F2 B2]; subst; try reflexivity;
  repeat same_cut;
  try (exfalso; match goal with L : Lacks ?s ?sep, C : CutAt ?s ?sep ?x ?y |- _ => apply (lacks_not s sep x y C); [|exact L]; solve [assumption|eapply cut_nonempty; [eassumption|assumption]] end).
  all: try (pose proof (lines_unique _ _ F1 _ F2) as E; first [discriminate E|injection E; intros; subst]); try reflexivity;
    try (pose proof (body_unique _ _ _ _ B1 B2) as E2; first [discriminate E2|injection E2; intros; subst; reflexivity]); try reflexivity.
Qed.
Theorem parse_exactly : forall raw, exists v u, tool_parse raw = Some v /\ Returned v u /\ ToolSays raw u /\ forall u', ToolSays raw u' -> u' = u.
Proof.
  intros raw. destruct (parse_says raw) as (v & u & H1 & H2 & H3). exists v, u. split; [exact H1|]. split; [exact H2|]. split; [exact H3|].
  intros u' H'. exact (says_unique raw u' u H' H3).
Qed.
