(* Consequences of the verdict on any reads. *)
From Verif Require Import M_Base L_Base M_Status M_Method M_Proto M_Uri M_KeyValue M_Query M_Request
  M_Parser S_Parser S_Head S_Split S_Verdict S_Arrive L_Parser L_Head L_Uri L_Loose L_Tables L_Safe L_Split L_Refuse L_Verdict L_Arrive L_Arrive2 L_Arrive3 L_Arrive4 L_Arrive5 L_Arrive6.
Local Open Scope Z_scope.

Lemma taken_always : forall cfg umax kmax vmax p reads q extra, 0 <= umax -> Ready umax kmax vmax p -> fst (feed cfg p reads) = RDone q extra ->
  exists h rest, HeadHeard (cfg_limits cfg umax kmax vmax) reads (VTaken h rest) /\ TakenFrom (cfg_limits cfg umax kmax vmax) (p_req p) h (p_req q).
Proof.
  intros cfg umax kmax vmax p reads q extra U R E. destruct (head_all (cfg_limits cfg umax kmax vmax) reads) as (v & V).
  pose proof (head_follow cfg umax kmax vmax U reads v V p R) as O. destruct v as [|h rest|v e|]; cbn [Follows] in O.
  - destruct O as (q' & O). rewrite O in E. discriminate E.
  - destruct O as (q' & x & O1 & O2 & O3). rewrite O1 in E. injection E as -> ->. exists h, rest. split; [exact V|exact O3].
  - destruct O as (q' & O & _). congruence.
  - congruence.
Qed.
Lemma counted_values : forall ls, map hl_value (filter is_content_length (map compared_line ls)) = map hl_value (filter (fun l => counts_length (hl_key l)) ls).
Proof.
  induction ls as [|l ls IH]; [reflexivity|]. cbn [map filter]. change (is_content_length (compared_line l)) with (counts_length (hl_key l)). destruct (counts_length (hl_key l)); cbn [map]; rewrite IH; reflexivity.
Qed.
Lemma length_always : forall cfg umax kmax vmax p reads q extra, 0 <= umax -> Ready umax kmax vmax p -> fst (feed cfg p reads) = RDone q extra ->
  exists h rest, HeadHeard (cfg_limits cfg umax kmax vmax) reads (VTaken h rest) /\
    let counted := map hl_value (filter (fun l => counts_length (hl_key l)) (h_lines h)) in
    match counted with
    | [] => r_content_length (p_req q) = r_content_length (p_req p)
    | _ => as_int64 (dec_value (filter is_digit (concat counted))) (r_content_length (p_req q))
    end.
Proof.
  intros cfg umax kmax vmax p reads q extra U R E. destruct (taken_always _ _ _ _ _ _ _ _ U R E) as (h & rest & V & _ & hs & T). exists h, rest. split; [exact V|]. cbv zeta.
  apply ta_length in T. unfold LengthAs in T. cbn [with_lines h_lines] in T. unfold length_digits in T. rewrite counted_values in T.
  change (r_content_length (set_headers hs (p_req q))) with (r_content_length (p_req q)) in T.
  assert (X : existsb is_content_length (map compared_line (h_lines h)) = match map hl_value (filter (fun l => counts_length (hl_key l)) (h_lines h)) with [] => false | _ => true end).
  { generalize (h_lines h). induction l as [|l ls IH]; [reflexivity|]. cbn [map existsb filter]. change (is_content_length (compared_line l)) with (counts_length (hl_key l)).
    destruct (counts_length (hl_key l)); [reflexivity|]. exact IH. }
  rewrite X in T. destruct (map hl_value _); exact T.
Qed.
Lemma names_always : forall cfg umax kmax vmax p reads q extra, 0 <= umax -> Ready umax kmax vmax p -> kv_pairs (r_headers (p_req p)) = [] ->
  fst (feed cfg p reads) = RDone q extra ->
  exists h rest, HeadHeard (cfg_limits cfg umax kmax vmax) reads (VTaken h rest) /\
    kv_pairs (r_headers (p_req q)) = fields_sent (h_lines h) /\
    ((exists k v c, In (k, v) (kv_pairs (r_headers (p_req q))) /\ In c k /\ a_break c) <->
     (exists l c, In l (h_lines h) /\ counts_length (hl_key l) = false /\ In c (hl_key l) /\ a_break c)).
Proof.
  intros cfg umax kmax vmax p reads q extra U R K E. destruct (taken_always _ _ _ _ _ _ _ _ U R E) as (h & rest & V & T & _). exists h, rest. split; [exact V|].
  rewrite K, app_nil_l in T. split; [exact T|]. rewrite T. unfold fields_sent. split.
  - intros (k & v & c & I1 & I2 & I3). apply in_map_iff in I1. destruct I1 as (l & E1 & I1). apply filter_In in I1. destruct I1 as [I1 F]. injection E1 as <- <-. exists l, c.
    split; [exact I1|]. split; [destruct (counts_length (hl_key l)); [discriminate|reflexivity]|]. split; assumption.
  - intros (l & c & I1 & F & I2 & I3). exists (hl_key l), (hl_value l), c. split; [|split; assumption]. apply in_map_iff. exists l. split; [reflexivity|]. apply filter_In. split; [exact I1|]. rewrite F. reflexivity.
Qed.

(* ---- two ways of reading ---- *)
Lemma heard_unique : forall lim a reads t, LinesHeard lim a reads t -> forall t', LinesHeard lim a reads t' -> 
  forall v v', LinesTell lim [] t v -> LinesTell lim [] t' v' -> forall h, Agree (of_lines h v) (of_lines h v').
Proof.
  intros [u lh lk lv l1 lt] a reads t H t' H' v v' V V' h. set (cfg := HCfg lh l1 lt). change (Limits u lh lk lv l1 lt) with (cfg_limits cfg u lk lv) in *.
  set (p0 := new_parser u lk lv new_request).
  assert (A : AInv cfg lk lv new_request p0 []) by (constructor; [exists []; split; reflexivity|exists []; split; reflexivity|reflexivity|reflexivity]).
  pose proof (lines_follow cfg u lk lv new_request [] t v V p0 (S (List.length t)) A ltac:(lia)) as O.
  pose proof (lines_follow cfg u lk lv new_request [] t' v' V' p0 (S (List.length t')) A ltac:(lia)) as O'.
  set (f := S (List.length a)). destruct (run cfg f eHeaderKey p0 a) as [q|q e|q e| |] eqn:Ra.
  2-5: assert (T1 : t = a ++ concat reads) by (apply (heard_ended cfg u lk lv new_request a reads t H p0 f A); [unfold f; lia|rewrite Ra; exact I]);
       assert (T2 : t' = a ++ concat reads) by (apply (heard_ended cfg u lk lv new_request a reads t' H' p0 f A); [unfold f; lia|rewrite Ra; exact I]);
       rewrite T1 in O; rewrite T2 in O'; destruct (run cfg (S (List.length (a ++ concat reads))) eHeaderKey p0 (a ++ concat reads)) eqn:Er;
       destruct v as [|ls rest|e1|], v' as [|ls' rest'|e1'|]; cbn [AObeys of_lines Agree] in *; try exact I; decompose [ex and] O; decompose [ex and] O'; try congruence; split; congruence.
  pose proof (heard cfg u lk lv new_request a reads t H p0 q q f (S (List.length t)) A ltac:(unfold f; lia) Ra (near_refl q) ltac:(lia)) as S0.
  pose proof (heard cfg u lk lv new_request a reads t' H' p0 q q f (S (List.length t')) A ltac:(unfold f; lia) Ra (near_refl q) ltac:(lia)) as S1.
  destruct v as [|ls rest|e1|], v' as [|ls' rest'|e1'|]; cbn [AObeys of_lines Agree] in *; try exact I; decompose [ex and] O; decompose [ex and] O';
    repeat match goal with E : run _ _ _ _ _ = _ |- _ => rewrite E in * end; cbn [same_as] in S0, S1; decompose [ex and] S0; decompose [ex and] S1;
    repeat match goal with E : feed_at _ _ _ _ = _ |- _ => rewrite E in * end; cbn [fst snd] in *; try congruence; split; congruence.
Qed.
Lemma two_reads : forall lim reads reads' v, concat reads = concat reads' -> HeadHeard lim reads v ->
  (forall m t, concat reads = m ++ SP :: t -> ~ In SP m -> len m + len (line_part t) <= lim_line lim) ->
  (forall m l t, concat reads = m ++ SP :: l ++ LF :: t -> ~ In SP m -> ~ In LF l ->
     let k := (List.length m + List.length l + 2)%nat in
     LinesHeard lim [] (without k reads) t /\ LinesHeard lim [] (without k reads') t) ->
  exists v', HeadHeard lim reads' v' /\ Agree v v'.
Proof.
  intros lim reads reads' v E H Hl HL.
  assert (K : forall r m, len (kept r m) <= len m) by (intros r m; unfold kept; destruct (Nat.ltb _ _); [apply len_nonneg|lia]).
  destruct H as [Hs L|Hs L|m t E1 Hs L|t E1|m t E1 Hs L Hn Hm|m t E1 Hm L1 L2|m t E1 Hm Hf L|m l t e E1 Hm Hf L Hb|m l t E1 Hm Hf L|m l t h t' v E1 Hf L Hg Hh Hv].
  - exists VMore. split; [apply Hh_method_more; rewrite <- E; assumption|exact I].
  - exists (VRefused None ErrTooLongRequestLine). split; [apply Hh_method_long; rewrite <- E; assumption|split; reflexivity].
  - exfalso. pose proof (Hl m t E1 Hs). pose proof (K reads m). pose proof (len_nonneg (line_part t)). lia.
  - eexists. split; [eapply Hh_no_method; rewrite <- E; exact E1|split; reflexivity].
  - eexists. split; [eapply Hh_method; [rewrite <- E; exact E1|exact Hs| |exact Hn|exact Hm]|split; reflexivity]. pose proof (Hl m t E1 Hs). pose proof (K reads' m). pose proof (len_nonneg (line_part t)). lia.
  - exfalso. destruct (method_spelled m Hm) as [Hs _]. pose proof (Hl m t E1 Hs). pose proof (K reads m). lia.
  - exists VMore. destruct (method_spelled m Hm) as [Hs _]. split; [eapply Hh_line_more; [rewrite <- E; exact E1|exact Hm|exact Hf|]|exact I].
    pose proof (Hl m t E1 Hs) as X. rewrite line_of_all in X by exact Hf. pose proof (K reads' m). lia.
  - destruct (method_spelled m Hm) as [Hs _]. eexists. split; [eapply Hh_line_bad; [rewrite <- E; exact E1|exact Hm|exact Hf| |exact Hb]|split; reflexivity].
    pose proof (Hl m _ E1 Hs) as X. rewrite line_of in X by exact Hf. pose proof (K reads' m). lia.
  - destruct (method_spelled m Hm) as [Hs _]. exists VPanics. split; [eapply Hh_line_blank; [rewrite <- E; exact E1|exact Hm|exact Hf|]|exact I].
    pose proof (Hl m _ E1 Hs) as X. change (l ++ SP :: LF :: t) with (l ++ [SP] ++ LF :: t) in X. rewrite app_assoc in X. rewrite line_of in X by (rewrite in_app_iff; intros [Y|[Y|[]]]; [exact (Hf Y)|discriminate Y]).
    rewrite len_app in X. change (len [SP]) with 1 in X. pose proof (K reads' m). lia.
  - destruct (good_method m l h Hg) as [Hm _]. destruct (method_spelled m Hm) as [Hs _]. destruct (HL m l t E1 Hs Hf) as [X1 X2].
    destruct (lines_all lim (List.length t) t ltac:(lia) []) as (w & W). exists (of_lines h w). split.
    + eapply Hh_lines; [rewrite <- E; exact E1|exact Hf| |exact Hg|exact X2|exact W]. pose proof (Hl m _ E1 Hs) as X. rewrite line_of in X by exact Hf. pose proof (K reads' m). lia.
    + exact (heard_unique lim [] _ t' Hh t X1 v w Hv W h).
Qed.
Lemma agree_trans : forall a b c, Agree a b -> Agree b c -> Agree a c.
Proof. intros [|? ?|? ?|] [|? ?|? ?|] [|? ?|? ?|] H1 H2; cbn [Agree] in *; try contradiction; try exact I; try congruence. destruct H1, H2. split; congruence. Qed.
Lemma same_arrival : forall lim reads reads' v v', 0 <= lim_line lim -> concat reads = concat reads' ->
  HeadHeard lim reads v -> HeadHeard lim reads' v' ->
  (forall m t, concat reads = m ++ SP :: t -> ~ In SP m -> len m + len (line_part t) <= lim_line lim) ->
  (forall m l t, concat reads = m ++ SP :: l ++ LF :: t -> ~ In SP m -> ~ In LF l ->
     let k := (List.length m + List.length l + 2)%nat in
     LinesHeard lim [] (without k reads) t /\ LinesHeard lim [] (without k reads') t) ->
  Agree v v'.
Proof.
  intros lim reads reads' v v' U E V V' H1 H2. destruct (two_reads lim reads reads' v E V H1 H2) as (w & W & A). eapply agree_trans; [exact A|]. exact (head_agree lim reads' w v' U W V').
Qed.
