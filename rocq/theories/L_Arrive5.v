(* The request taken from lines of any names, and the request line in any reads. *)
From Verif Require Import M_Base L_Base M_Status M_Method M_Proto M_Uri M_KeyValue M_Query M_Request
  M_Parser S_Parser S_Head S_Split S_Verdict S_Arrive L_Parser L_Head L_Uri L_Loose L_Tables L_Safe L_Split L_Refuse L_Verdict L_Arrive L_Arrive2 L_Arrive3 L_Arrive4.
Local Arguments cut : simpl never.
Local Arguments cut_last : simpl never.
Local Open Scope Z_scope.

(* ---- the request ---- *)
Lemma header_compared : forall cfg k v hs r,
  apply_header cfg (compared k) v (set_headers hs r) = set_headers (kv_add hs (compared k) v) (apply_header cfg k v r).
Proof.
  intros cfg k v hs r. unfold apply_header. rewrite !key_is_compared. assert (L : List.length (compared k) = List.length k) by (unfold compared; apply map_length). rewrite L.
  generalize (List.length k). intros n.
  do 18 (destruct n as [|n]; [repeat match goal with |- context [if ?b then _ else _] => destruct b end; try reflexivity; destruct (parse_encoding_string v (c_max_enc_tokens cfg)); reflexivity|]).
  reflexivity.
Qed.
Lemma header_pairs : forall cfg k v r, kv_pairs (r_headers (apply_header cfg k v r)) = kv_pairs (r_headers r) ++ [(k, v)].
Proof.
  intros cfg k v r. unfold apply_header. generalize (List.length k). intros n.
  do 18 (destruct n as [|n]; [repeat match goal with |- context [if ?b then _ else _] => destruct b end; try reflexivity; destruct (parse_encoding_string v (c_max_enc_tokens cfg)); reflexivity|]).
  reflexivity.
Qed.
Lemma effect_compared : forall cfg ls n r hs, exists hs',
  fold_left (eff cfg) (map compared_line ls) (n, set_headers hs r) = (fst (fold_left (effect cfg) ls (n, r)), set_headers hs' (snd (fold_left (effect cfg) ls (n, r)))).
Proof.
  intros cfg. induction ls as [|l ls IH]; intros n r hs; [exists hs; reflexivity|]. cbn [map fold_left]. unfold eff at 2. unfold effect at 2 4.
  change (is_content_length (compared_line l)) with (counts_length (hl_key l)). cbn [fst snd compared_line hl_key hl_value]. destruct (counts_length (hl_key l)); cbv zeta.
  - exact (IH _ (set_content_length _ r) hs).
  - rewrite header_compared. apply IH.
Qed.
Lemma effect_pairs : forall cfg ls n r, kv_pairs (r_headers (snd (fold_left (effect cfg) ls (n, r)))) = kv_pairs (r_headers r) ++ fields_sent ls.
Proof.
  intros cfg. induction ls as [|l ls IH]; intros n r; [symmetry; apply app_nil_r|]. cbn [fold_left]. unfold effect at 2. unfold fields_sent. cbn [filter fst snd]. destruct (counts_length (hl_key l)); cbn [negb]; cbv zeta.
  - exact (IH _ (set_content_length _ r)).
  - rewrite IH, header_pairs, <- app_assoc. reflexivity.
Qed.
Lemma lines_fine : forall lim ls t v, LinesTell lim ls t v -> Forall line_good (map compared_line ls) -> forall ls' rest, v = LTaken ls' rest -> Forall line_good (map compared_line ls').
Proof.
  intros lim ls t v H. induction H; intros G ls' rest E; try discriminate E.
  - injection E as <- _. exact G.
  - eapply IHLinesTell; [|exact E]. rewrite map_app. apply Forall_app. split; [exact G|]. constructor; [|constructor]. unfold line_good.
    change (is_content_length (compared_line l)) with (counts_length (hl_key l)). rewrite H. destruct H0 as ((A & _) & D). destruct (compared_plain _ A) as (X1 & X2 & X3).
    unfold wf_line. change (is_content_length (compared_line l)) with (counts_length (hl_key l)). rewrite H. split; [exact X3|]. split; [exact X1|]. split; [exact X2|]. exact D.
  - eapply IHLinesTell; [|exact E]. rewrite map_app. apply Forall_app. split; [exact G|]. constructor; [|constructor]. unfold line_good.
    change (is_content_length (compared_line (HLine n 0 ds crlf))) with (counts_length n). rewrite H0. exact H3.
Qed.
Lemma taken_from : forall cfg umax kmax vmax h r0, Forall line_good (map compared_line (h_lines h)) ->
  TakenFrom (cfg_limits cfg umax kmax vmax) r0 h (snd (fold_left (effect cfg) (h_lines h) (0, line_effect h (set_method (h_method h) r0)))).
Proof.
  intros cfg umax kmax vmax h r0 G. set (r1 := line_effect h (set_method (h_method h) r0)). split.
  - rewrite effect_pairs. f_equal. unfold r1, line_effect. destruct (h_query h); reflexivity.
  - destruct (effect_compared cfg (h_lines h) 0 r1 (r_headers r1)) as (hs & E). exists hs.
    assert (X : set_headers (r_headers r1) r1 = r1) by (destruct r1; reflexivity). rewrite X in E.
    pose proof (taken cfg umax kmax vmax (with_lines (map compared_line (h_lines h)) h) r0 G) as T. cbn [with_lines h_lines h_method] in T.
    change (line_effect (with_lines (map compared_line (h_lines h)) h) (set_method (h_method h) r0)) with r1 in T. rewrite E in T. exact T.
Qed.

(* ---- reads without their beginning ---- *)
Lemma without_without : forall reads j k, without k (without j reads) = without (j + k) reads.
Proof.
  induction reads as [|d reads IH]; intros j k; [reflexivity|]. cbn [without]. destruct (Nat.leb_spec j (List.length d)) as [A|A].
  - cbn [without]. rewrite skipn_length. destruct (Nat.leb_spec k (List.length d - j)) as [C|C]; destruct (Nat.leb_spec (j + k) (List.length d)) as [D|D]; try lia.
    + f_equal. clear - A. revert j A. induction d as [|x d IH]; intros j A; [cbn [List.length] in A; assert (j = 0%nat) by lia; subst; reflexivity|].
      destruct j as [|j]; [reflexivity|]. cbn [skipn Nat.add]. apply IH. cbn [List.length] in A. lia.
    + f_equal. lia.
  - rewrite IH. destruct (Nat.leb_spec (j + k) (List.length d)) as [D|D]; [lia|]. f_equal. lia.
Qed.

(* ---- the rest of the request line ---- *)
Definition at_line (p : parser) (dn : bytes) (umax : Z) (s : pstate) : parser := set_p_state s (set_p_start (Buffer dn [] umax) p).
Lemma path_phase : forall cfg umax reads p dn sg, p_start p = Buffer dn sg umax -> len dn + len sg <= umax ->
  let t := concat reads in
  (len dn + len sg + len (line_part t) > umax -> exists q, fst (feed_at cfg ePath p reads) = RErr q ErrURITooLong /\ p_req q = p_req p) /\
  (len dn + len sg + len (line_part t) <= umax ->
     (~ In LF t -> exists q, feed_at cfg ePath p reads = (RPending q, [])) /\
     (forall l rest, t = l ++ LF :: rest -> ~ In LF l -> exists s dn', 
        match request_line (at_line p dn' umax s) (sg ++ l) with
        | inl r => ended r -> fst (feed_at cfg ePath p reads) = r
        | inr p2 => feed_at cfg ePath p reads = feed_at cfg eHeaderKey p2 (without (List.length l + 1) reads)
        end)).
Proof.
  intros cfg umax. induction reads as [|d reads IH]; intros p dn sg Hs Hu t.
  - subst t. cbn [concat]. unfold line_part. change (cut [] LF) with (@None (bytes * bytes)). cbv iota. change (len []) with 0. split; [intros; lia|]. intros _. split; [intros _; exists p; reflexivity|].
    intros l rest E. exfalso. destruct l; discriminate E.
  - assert (Et : t = d ++ concat reads) by reflexivity. cbn [feed_at]. cbn [run step]. unfold step_path. rewrite Hs. destruct (cut d LF) as [[a b]|] eqn:Ec.
    + assert (Lp : line_part t = a) by (unfold line_part; rewrite Et, (cut_more _ _ _ _ (concat reads) Ec); reflexivity). rewrite Lp.
      unfold buf_append. cbn [b_done b_seg b_max]. split.
      * intros G. destruct (Z.gtb_spec (len dn + len sg + len a) umax) as [_|G']; [|lia]. exists p. split; reflexivity.
      * intros G. destruct (Z.gtb_spec (len dn + len sg + len a) umax) as [G'|_]; [lia|]. cbn [buf_finish b_seg b_done b_max].
        pose proof Ec as Ec0. apply cut_some in Ec. destruct Ec as [Ed Ha]. split; [intros N; exfalso; apply N; rewrite Et, Ed; apply in_or_app; left; apply in_or_app; right; left; reflexivity|].
        intros l rest E Hl. rewrite Et in E. destruct (cut_first _ _ _ _ _ E Hl _ _ Ec0) as [-> _].
        exists (p_state p), (dn ++ sg ++ l). unfold at_line.
        assert (X : set_p_state (p_state p) (set_p_start (Buffer (dn ++ sg ++ l) [] umax) p) = set_p_start (Buffer (dn ++ sg ++ l) [] umax) p) by (destruct p; reflexivity). rewrite X.
        change (buf_finish (Buffer dn (sg ++ l) umax)) with (sg ++ l, Buffer (dn ++ sg ++ l) [] umax). cbv iota beta.
        destruct (request_line (set_p_start (Buffer (dn ++ sg ++ l) [] umax) p) (sg ++ l)) as [r|p2] eqn:Er.
        -- intros En. destruct r; [contradiction|reflexivity|reflexivity|reflexivity|reflexivity].
        -- cbn [without]. assert (Hd : List.length d = (List.length l + 1 + List.length b)%nat) by (rewrite Ed, app_length; cbn [List.length]; lia).
           destruct (Nat.leb_spec (List.length l + 1) (List.length d)) as [_|F]; [|lia].
           assert (Sk : skipn (List.length l + 1) d = b). { rewrite Ed. clear. induction l as [|x l IH]; [reflexivity|]. cbn [List.length app Nat.add skipn]. exact IH. }
           rewrite Sk. cbn [feed_at]. rewrite (run_fuel cfg (List.length d) (S (List.length b))) by lia. reflexivity.
    + assert (Lp : len (line_part t) = len d + len (line_part (concat reads))) by (rewrite Et; apply line_later; exact Ec). rewrite Lp.
      pose proof (len_nonneg (line_part (concat reads))) as P0. unfold buf_append. cbn [b_done b_seg b_max].
      destruct (Z.gtb_spec (len dn + len sg + len d) umax) as [G|G].
      * split; [intros _; exists p; split; reflexivity|]. intros; lia.
      * set (p' := set_p_state ePath (set_p_start (Buffer dn (sg ++ d) umax) p)).
        destruct (IH p' dn (sg ++ d) eq_refl ltac:(rewrite len_app; lia)) as [I1 I2]. rewrite feed_begin. change (p_state p') with ePath. rewrite len_app in *. split.
        -- intros G2. destruct I1 as (q & Q1 & Q2); [lia|]. exists q. split; [exact Q1|exact Q2].
        -- intros G2. destruct I2 as [I2 I3]; [lia|]. pose proof Ec as Ec0. apply cut_none in Ec. split.
           ++ intros N. apply I2. intros K. apply N. rewrite Et. apply in_or_app. right. exact K.
           ++ intros l rest E Hl. rewrite Et in E. destruct (cut_short _ _ _ _ _ E Hl Ec0) as (l' & -> & E').
              destruct (I3 l' rest E' ltac:(intros K; apply Hl; apply in_or_app; right; exact K)) as (s & dn' & I4). exists s, dn'. rewrite <- app_assoc in I4.
              assert (X : at_line p' dn' umax s = at_line p dn' umax s) by reflexivity. rewrite X in I4. destruct (request_line (at_line p dn' umax s) (sg ++ d ++ l')) as [r|p2]; [exact I4|].
              rewrite I4. cbn [without]. rewrite app_length. destruct (Nat.leb_spec (List.length d + List.length l' + 1) (List.length d)) as [F|_]; [lia|]. f_equal. f_equal. lia.
Qed.

(* ---- the method ---- *)
Lemma first_read_nil : forall reads, first_read ([] :: reads) = first_read reads.
Proof. reflexivity. Qed.
Definition held_method (a : bytes) (reads : list bytes) (m : bytes) : bytes := match a with [] => kept reads m | _ => a ++ m end.
Lemma method_phase : forall cfg umax reads p a, p_state p = eMethod -> p_start p = Buffer [] a umax -> ~ In SP a -> len a <= umax ->
  let t := concat reads in
  (~ In SP t -> len a + len t > umax -> exists q, fst (feed cfg p reads) = RErr q ErrTooLongRequestLine /\ p_req q = p_req p) /\
  (~ In SP t -> len a + len t <= umax -> exists q, feed cfg p reads = (RPending q, [])) /\
  (forall m t', t = m ++ SP :: t' -> ~ In SP m ->
     (len (held_method a reads m) > umax -> exists q, fst (feed cfg p reads) = RErr q ErrTooLongRequestLine /\ p_req q = p_req p) /\
     (len (held_method a reads m) <= umax -> exists s,
        match method_end (at_line p (held_method a reads m) umax s) (a ++ m) t' with
        | Ret r => fst (feed cfg p reads) = r
        | Goto _ p' _ => feed cfg p reads = feed_at cfg ePath p' (without (List.length m + 1) reads)
        end)).
Proof.
  intros cfg umax. induction reads as [|d reads IH]; intros p a Hp Hs Ha Hu t.
  - subst t. cbn [concat]. change (len []) with 0. split; [intros; lia|]. split; [intros _ _; exists p; reflexivity|]. intros m t' E. exfalso. destruct m; discriminate E.
  - assert (Et : t = d ++ concat reads) by reflexivity. cbn [feed]. unfold parse. rewrite Hp. cbn [run step]. unfold step_method. rewrite Hs. destruct (cut d SP) as [[x b]|] eqn:Ec.
    + pose proof Ec as Ec0. apply cut_some in Ec. destruct Ec as [Ed Hx].
      assert (InS : In SP t) by (rewrite Et, Ed; apply in_or_app; left; apply in_or_app; right; left; reflexivity).
      split; [intros N; contradiction|]. split; [intros N; contradiction|]. intros m t' E Hm. rewrite Et in E. destruct (cut_first _ _ _ _ _ E Hm _ _ Ec0) as [-> Eb].
      assert (Hd : List.length d = (List.length m + 1 + List.length b)%nat) by (rewrite Ed, app_length; cbn [List.length]; lia).
      assert (Wd : without (List.length m + 1) (d :: reads) = b :: reads).
      { cbn [without]. destruct (Nat.leb_spec (List.length m + 1) (List.length d)) as [_|F]; [|lia]. f_equal. rewrite Ed. clear. induction m as [|y m IH]; [reflexivity|]. cbn [List.length app Nat.add skipn]. exact IH. }
      rewrite Wd. clear Wd.
      assert (M : forall p1 mv, match match mv with
                  | [] => Ret (RErr p1 ErrBadRequest)
                  | _ => let mm := method_parse mv in let p2 := set_p_req (set_method mm (p_req p1)) p1 in
                         match mm with MUnknown => Ret (RErr p2 ErrMethodNotImplemented) | _ => Goto ePath p2 b end
                  end with Ret r => r | Goto l p2 d' => run cfg (List.length d) l p2 d' end =
                match method_end p1 mv t' with Ret r => r | Goto _ p2 _ => run cfg (S (List.length b)) ePath p2 b end).
      { intros p1 mv. unfold method_end. destruct mv as [|y mv]; [reflexivity|]. cbv zeta. destruct (method_parse (y :: mv)); try reflexivity; apply run_fuel; lia. }
      destruct a as [|a0 a1].
      * change (buf_seglen (Buffer [] [] umax) =? 0) with true. cbv iota. cbn [held_method app].
        assert (K : kept (d :: reads) m = []). { unfold kept. destruct d as [|c d]; [cbn [List.length] in Hd; lia|]. cbn [first_read]. destruct (Nat.ltb_spec (List.length m) (List.length (c :: d))); [reflexivity|lia]. }
        rewrite K. change (len []) with 0. split; [intros; change (len []) with 0 in Hu; lia|]. intros _. exists (p_state p). unfold at_line.
        assert (X : set_p_state (p_state p) (set_p_start (Buffer [] [] umax) p) = p) by (rewrite <- Hs; destruct p; reflexivity). rewrite X.
        change (feed_at cfg ePath ?p2 (b :: reads)) with (match run cfg (S (List.length b)) ePath p2 b with RPending p' => feed cfg p' reads | r => (r, reads) end).
        pose proof (M p m) as M0. cbv beta zeta in M0 |- *. rewrite M0. clear M0. unfold method_end. destruct m as [|y m]; [reflexivity|]. cbv zeta. destruct (method_parse (y :: m)); reflexivity.
      * assert (Z0 : (buf_seglen (Buffer [] (a0 :: a1) umax) =? 0) = false) by (unfold buf_seglen; cbn [b_seg]; rewrite len_cons; pose proof (len_nonneg a1); apply Z.eqb_neq; lia). rewrite Z0.
        cbn [held_method]. unfold buf_append. cbn [b_done b_seg b_max]. change (len []) with 0. rewrite Z.add_0_l, len_app. split.
        -- intros G. destruct (Z.gtb_spec (len (a0 :: a1) + len m) umax) as [_|F]; [|lia]. exists p. split; reflexivity.
        -- intros G. destruct (Z.gtb_spec (len (a0 :: a1) + len m) umax) as [F|_]; [lia|]. exists (p_state p). unfold at_line.
           change (buf_finish (Buffer [] ((a0 :: a1) ++ m) umax)) with ((a0 :: a1) ++ m, Buffer ([] ++ (a0 :: a1) ++ m) [] umax). cbv iota beta. rewrite app_nil_l.
           set (p1 := set_p_start (Buffer ((a0 :: a1) ++ m) [] umax) p). assert (X : set_p_state (p_state p) p1 = p1) by (destruct p; reflexivity). rewrite X.
           change (feed_at cfg ePath ?p2 (b :: reads)) with (match run cfg (S (List.length b)) ePath p2 b with RPending p' => feed cfg p' reads | r => (r, reads) end).
           pose proof (M p1 ((a0 :: a1) ++ m)) as M0. cbv beta zeta in M0 |- *. rewrite M0. clear M0. unfold method_end. cbn [app]. cbv zeta. destruct (method_parse (a0 :: a1 ++ m)); reflexivity.
    + pose proof Ec as Ec0. apply cut_none in Ec. unfold buf_append. cbn [b_done b_seg b_max]. change (len []) with 0. rewrite Z.add_0_l. rewrite Et.
      assert (N0 : ~ In SP (a ++ d)) by (rewrite in_app_iff; tauto).
      assert (HM : forall m t', d ++ concat reads = m ++ SP :: t' -> ~ In SP m -> exists m', m = d ++ m' /\ concat reads = m' ++ SP :: t' /\ ~ In SP m' /\
                   held_method a (d :: reads) m = held_method (a ++ d) reads m' /\ without (List.length m + 1) (d :: reads) = without (List.length m' + 1) reads).
      { intros m t' E Hm. destruct (cut_short _ _ _ _ _ E Hm Ec0) as (m' & -> & E'). exists m'. split; [reflexivity|]. split; [exact E'|]. split; [intros K; apply Hm; apply in_or_app; right; exact K|]. split.
        - destruct a as [|a0 a1]; [|cbn [held_method app]; rewrite <- app_assoc; reflexivity]. cbn [app held_method]. destruct d as [|c d]; [reflexivity|].
          cbn [held_method]. unfold kept. cbn [first_read]. destruct (Nat.ltb_spec (List.length ((c :: d) ++ m')) (List.length (c :: d))) as [F|_]; [rewrite app_length in F; lia|reflexivity].
        - cbn [without]. rewrite app_length. destruct (Nat.leb_spec (List.length d + List.length m' + 1) (List.length d)) as [F|_]; [lia|]. f_equal. lia. }
      rewrite len_app. destruct (Z.gtb_spec (len a + len d) umax) as [G|G].
      * split; [intros _ _; exists p; split; reflexivity|]. pose proof (len_nonneg (concat reads)). split; [intros; lia|]. intros m t' E Hm. destruct (HM m t' E Hm) as (m' & _ & _ & _ & H1 & _).
        split; [intros _; exists p; split; reflexivity|]. intros L. exfalso. rewrite H1 in L. unfold held_method in L. destruct (a ++ d) as [|c0 r0] eqn:Ead.
        -- apply app_eq_nil in Ead. destruct Ead as [-> ->]. change (len []) with 0 in G, Hu. lia.
        -- rewrite <- Ead, !len_app in L. pose proof (len_nonneg m'). lia.
      * set (p' := set_p_start (Buffer [] (a ++ d) umax) p). destruct (IH p' (a ++ d) Hp eq_refl N0 ltac:(rewrite len_app; lia)) as (I1 & I2 & I3). rewrite len_app in I1, I2. split; [|split].
        -- intros N L. destruct I1 as (q & Q); [rewrite in_app_iff in N; tauto|lia|]. exists q. exact Q.
        -- intros N L. apply I2; [rewrite in_app_iff in N; tauto|lia].
        -- intros m t' E Hm. destruct (HM m t' E Hm) as (m' & Em & E' & Hm' & H1 & H2). rewrite H1, H2. destruct (I3 m' t' E' Hm') as [I4 I5]. split.
           ++ intros L. destruct (I4 L) as (q & Q). exists q. exact Q.
           ++ intros L. destruct (I5 L) as (s & I6). exists s. rewrite Em, app_assoc. exact I6.
Qed.
