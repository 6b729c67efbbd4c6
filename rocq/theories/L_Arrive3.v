(* Header lines in any reads. *)
From Verif Require Import M_Base L_Base M_Status M_Method M_Proto M_Uri M_KeyValue M_Query M_Request
  M_Parser S_Parser S_Head S_Split S_Verdict S_Arrive L_Parser L_Head L_Uri L_Loose L_Tables L_Safe L_Split L_Refuse L_Verdict L_Arrive L_Arrive2.
Local Arguments cut : simpl never.
Local Arguments cut_last : simpl never.
Local Open Scope Z_scope.

Lemma not_break : forall c, ~ a_break c -> Byte.eqb c LF = false /\ Byte.eqb c CR = false.
Proof. intros c H. split; apply beq_neq; intros ->; apply H; [right|left]; reflexivity. Qed.
Lemma ret_run : forall cfg f l p d r, step cfg l p d = Ret r -> (List.length d < f)%nat -> run cfg f l p d = r.
Proof. intros cfg f l p d r H Hf. destruct f as [|f]; [lia|]. cbn [run]. rewrite H. reflexivity. Qed.
Lemma goto_run : forall cfg f l p d l' p' d', step cfg l p d = Goto l' p' d' -> (List.length d < f)%nat ->
  exists f', (List.length d' < f')%nat /\ run cfg f l p d = run cfg f' l' p' d'.
Proof. intros cfg f l p d l' p' d' H Hf. pose proof (step_shrinks _ _ _ _ _ _ _ H). destruct f as [|f]; [lia|]. exists f. split; [lia|]. cbn [run]. rewrite H. reflexivity. Qed.

(* one whole line *)
Lemma line_whole : forall cfg p k v, a_name k -> ~ In LF v ->
  (exists p', b_seg (p_key p') = [] /\ forall t f, (List.length (k ++ x3a :: v ++ LF :: t) < f)%nat ->
     exists f', (List.length t < f')%nat /\ run cfg f eHeaderKey p (k ++ x3a :: v ++ LF :: t) = run cfg f' eHeaderKey p' t) \/
  (forall t f q, (List.length (k ++ x3a :: v ++ LF :: t) < f)%nat -> run cfg f eHeaderKey p (k ++ x3a :: v ++ LF :: t) <> RPending q).
Proof.
  intros cfg p k v Hk Hv.
  assert (K : forall t, step cfg eHeaderKey p (k ++ x3a :: v ++ LF :: t) =
    match buf_append (p_key p) k with
    | None => Ret (RErr p ErrHeaderFieldsTooLarge)
    | Some b => let '(key, b') := buf_finish b in
                let p := set_p_hnum (p_hnum p + 1) (set_p_hkey key (set_p_key b' p)) in
                if p_hnum p >? c_max_headers cfg then Ret (RErr p ErrTooManyHeaders)
                else if key_is key (B "content-length") then Goto eContentLength p (v ++ LF :: t) else Goto eHeaderValue p (v ++ LF :: t)
    end).
  { intros t. cbn [step]. unfold step_header_key. destruct (k ++ x3a :: v ++ LF :: t) as [|c d] eqn:E; [destruct k; discriminate|].
    destruct (name_first k _ Hk c d E) as [-> ->]. rewrite <- E. rewrite cut_app by apply Hk. reflexivity. }
  destruct (buf_append (p_key p) k) as [b|] eqn:Eb.
  2:{ right. intros t f q Hf. rewrite (ret_run _ _ _ _ _ _ (K t) Hf). discriminate. }
  cbn [buf_finish] in K. cbn zeta in K. set (p1 := set_p_hnum _ _) in *. destruct (p_hnum p1 >? c_max_headers cfg).
  { right. intros t f q Hf. rewrite (ret_run _ _ _ _ _ _ (K t) Hf). discriminate. }
  assert (K1 : b_seg (p_key p1) = []) by reflexivity.
  destruct (key_is (b_seg b) (B "content-length")).
  - destruct (digits_span v) as (ds & rest & -> & Hd & [->|(c & r & -> & Hs & Hg)]).
    + left. exists (let n := fst (clen_loop (p_clen p1) ds) in set_p_req (set_content_length n (p_req p1)) (set_p_clen n p1)). split; [exact K1|].
      intros t f Hf. destruct (goto_run _ _ _ _ _ _ _ _ (K t) Hf) as (f1 & Hf1 & ->). apply goto_run; [|exact Hf1]. cbn [step]. unfold step_content_length.
      rewrite app_nil_r. rewrite clen_stop by (try exact Hd; try discriminate; reflexivity). reflexivity.
    + destruct (Byte.eqb c CR) eqn:Ec; [apply beq_eq in Ec; subst c; destruct r as [|c1 r]|].
      * left. exists (let n := fst (clen_loop (p_clen p1) ds) in set_p_req (set_content_length n (p_req p1)) (set_p_clen n p1)). split; [exact K1|].
        intros t f Hf. destruct (goto_run _ _ _ _ _ _ _ _ (K t) Hf) as (f1 & Hf1 & ->).
        assert (S1 : step cfg eContentLength p1 ((ds ++ [CR]) ++ LF :: t) = Goto eContentLengthCR (let n := fst (clen_loop (p_clen p1) ds) in set_p_req (set_content_length n (p_req p1)) (set_p_clen n p1)) (LF :: t)).
        { cbn [step]. unfold step_content_length. rewrite <- app_assoc. cbn [app]. rewrite clen_stop by (try exact Hd; try discriminate; reflexivity). reflexivity. }
        destruct (goto_run _ _ _ _ _ _ _ _ S1 Hf1) as (f2 & Hf2 & ->). apply goto_run; [reflexivity|exact Hf2].
      * right. intros t f q Hf. destruct (goto_run _ _ _ _ _ _ _ _ (K t) Hf) as (f1 & Hf1 & ->).
        assert (S1 : step cfg eContentLength p1 ((ds ++ CR :: c1 :: r) ++ LF :: t) = Goto eContentLengthCR (let n := fst (clen_loop (p_clen p1) ds) in set_p_req (set_content_length n (p_req p1)) (set_p_clen n p1)) (c1 :: r ++ LF :: t)).
        { cbn [step]. unfold step_content_length. rewrite <- app_assoc. cbn [app]. rewrite clen_stop by (try exact Hd; try discriminate; reflexivity). reflexivity. }
        destruct (goto_run _ _ _ _ _ _ _ _ S1 Hf1) as (f2 & Hf2 & ->).
        assert (N1 : Byte.eqb c1 LF = false) by (apply beq_neq; intros ->; apply Hv; apply in_or_app; right; right; left; reflexivity).
        erewrite ret_run; [|cbn [step]; unfold step_content_length_cr; rewrite N1; reflexivity|exact Hf2]. discriminate.
      * right. intros t f q Hf. destruct (goto_run _ _ _ _ _ _ _ _ (K t) Hf) as (f1 & Hf1 & ->).
        assert (N1 : Byte.eqb c LF = false) by (apply beq_neq; intros ->; apply Hv; apply in_or_app; right; left; reflexivity).
        erewrite ret_run; [|cbn [step]; unfold step_content_length; rewrite <- app_assoc; cbn [app]; rewrite clen_stop by (try exact Hd; assumption); cbn zeta; rewrite Ec, N1; reflexivity|exact Hf1]. discriminate.
  - assert (V : forall t, step cfg eHeaderValue p1 (v ++ LF :: t) =
      match buf_append (p_val p1) v with
      | None => Ret (RErr p1 ErrHeaderFieldsTooLarge)
      | Some b => if buf_seglen b >? c_max_value cfg then Ret (RErr (set_p_val b p1) ErrHeaderFieldsTooLarge)
          else let '(raw, b') := buf_finish b in
            let p := set_p_val b' p1 in
            let value := trim_prefix_spaces raw in
            match last_byte value with
            | None => Ret RPanic
            | Some c => let value := if Byte.eqb c CR then drop_last value else value in
                Goto eHeaderKey (set_p_req (apply_header cfg (p_hkey p) value (p_req p)) p) t
            end
      end) by (intros t; cbn [step]; unfold step_header_value; rewrite cut_app by exact Hv; reflexivity).
    destruct (buf_append (p_val p1) v) as [b1|].
    2:{ right. intros t f q Hf. destruct (goto_run _ _ _ _ _ _ _ _ (K t) Hf) as (f1 & Hf1 & ->). rewrite (ret_run _ _ _ _ _ _ (V t) Hf1). discriminate. }
    destruct (buf_seglen b1 >? c_max_value cfg).
    { right. intros t f q Hf. destruct (goto_run _ _ _ _ _ _ _ _ (K t) Hf) as (f1 & Hf1 & ->). rewrite (ret_run _ _ _ _ _ _ (V t) Hf1). discriminate. }
    cbn [buf_finish] in V. cbn zeta in V. destruct (last_byte _) as [c|].
    2:{ right. intros t f q Hf. destruct (goto_run _ _ _ _ _ _ _ _ (K t) Hf) as (f1 & Hf1 & ->). rewrite (ret_run _ _ _ _ _ _ (V t) Hf1). discriminate. }
    left. eexists. split; [|intros t f Hf; destruct (goto_run _ _ _ _ _ _ _ _ (K t) Hf) as (f1 & Hf1 & ->); apply goto_run; [exact (V t)|exact Hf1]]. exact K1.
Qed.
(* lines and the beginning of a name *)
Lemma begun_run : forall cfg b n, NameBegun b n -> forall p q f, (List.length (b ++ n) < f)%nat -> run cfg f eHeaderKey p (b ++ n) = RPending q ->
  p_state q = eHeaderKey /\ b_seg (p_key q) <> [] /\
  exists p1, p_req p1 = p_req q /\ forall t f', (List.length (b ++ t) < f')%nat -> exists f'', (List.length t < f'')%nat /\ run cfg f' eHeaderKey p (b ++ t) = run cfg f'' eHeaderKey p1 t.
Proof.
  intros cfg b n H. induction H as [n Hn Ha|k v b n Hk Hv H IH]; intros p q f Hf R.
  - cbn [app] in *. destruct n as [|c n]; [contradiction|]. destruct Ha as [A C]. cbn [hd] in C. destruct (not_break c C) as [N1 N2].
    assert (X : step cfg eHeaderKey p (c :: n) = match buf_append (p_key p) (c :: n) with None => Ret (RErr p ErrHeaderFieldsTooLarge) | Some b => Ret (RPending (set_p_state eHeaderKey (set_p_key b p))) end).
    { cbn [step]. unfold step_header_key. rewrite N1, N2. apply cut_none in A. rewrite A. reflexivity. }
    destruct (buf_append (p_key p) (c :: n)) as [b|] eqn:Eb; rewrite (ret_run _ _ _ _ _ _ X Hf) in R; [|discriminate]. injection R as <-.
    split; [reflexivity|]. split; [cbn [set_p_state set_p_key p_key]; apply append_seg in Eb; rewrite Eb; destruct (b_seg (p_key p)); discriminate|].
    exists p. split; [reflexivity|]. intros t f' Hf'. exists f'. split; [exact Hf'|reflexivity].
  - assert (X : forall u, (k ++ x3a :: v ++ LF :: b) ++ u = k ++ x3a :: v ++ LF :: b ++ u) by (intros u; rewrite <- app_assoc; cbn [app]; rewrite <- app_assoc; reflexivity).
    destruct (line_whole cfg p k v Hk Hv) as [(p' & _ & L)|L].
    + rewrite X in R, Hf. destruct (L (b ++ n) f Hf) as (f1 & Hf1 & E). rewrite E in R. destruct (IH p' q f1 Hf1 R) as (R1 & R2 & p1 & Q & T). split; [exact R1|]. split; [exact R2|].
      exists p1. split; [exact Q|]. intros t f' Hf'. rewrite X in *. destruct (L (b ++ t) f' Hf') as (f2 & Hf2 & ->). exact (T t f2 Hf2).
    + exfalso. rewrite X in R, Hf. exact (L _ _ _ Hf R).
Qed.
Lemma run_begun : forall cfg m a, (List.length a <= m)%nat -> forall p q f, b_seg (p_key p) = [] -> (List.length a < f)%nat -> run cfg f eHeaderKey p a = RPending q ->
  p_state q = eHeaderKey -> b_seg (p_key q) <> [] -> exists b n, a = b ++ n /\ NameBegun b n.
Proof.
  intros cfg. induction m as [|m IH]; intros a Hm p q f Kp Hf R Sq Kq.
  - destruct a; [|cbn [List.length] in Hm; lia]. erewrite ret_run in R; [|reflexivity|exact Hf]. injection R as <-. exfalso. apply Kq. exact Kp.
  - destruct a as [|c a]; [erewrite ret_run in R; [|reflexivity|exact Hf]; injection R as <-; exfalso; apply Kq; exact Kp|].
    destruct (Byte.eqb c LF) eqn:E1; [erewrite ret_run in R; [|cbn [step]; unfold step_header_key; rewrite E1; reflexivity|exact Hf]; discriminate|].
    destruct (Byte.eqb c CR) eqn:E2.
    { exfalso. destruct (goto_run cfg f eHeaderKey p (c :: a) eHeaderValueCRLFCR p a ltac:(cbn [step]; unfold step_header_key; rewrite E1, E2; reflexivity) Hf) as (f1 & Hf1 & E). rewrite E in R.
      destruct a as [|c1 a]; [erewrite ret_run in R; [|reflexivity|exact Hf1]; injection R as <-; discriminate|].
      destruct (Byte.eqb c1 LF) eqn:E3; (erewrite ret_run in R; [|cbn [step]; unfold step_crlfcr; rewrite E3; reflexivity|exact Hf1]); discriminate. }
    assert (NB : ~ a_break c) by (intros [->| ->]; rewrite beq_refl in *; discriminate).
    destruct (cut (c :: a) x3a) as [[k r]|] eqn:Ec.
    2:{ exists [], (c :: a). split; [reflexivity|]. constructor; [discriminate|]. split; [apply cut_none; exact Ec|exact NB]. }
    apply cut_some in Ec. destruct Ec as [Et Hk0].
    assert (Hk : a_name k) by (split; [exact Hk0|destruct k as [|x k]; [intros [X|X]; discriminate X|cbn [app] in Et; injection Et as <- _; exact NB]]).
    rewrite Et in *. destruct (cut r LF) as [[v t]|] eqn:Er.
    + apply cut_some in Er. destruct Er as [-> Hv]. destruct (line_whole cfg p k v Hk Hv) as [(p' & Kp' & L)|L]; [|exfalso; exact (L _ _ _ Hf R)].
      destruct (L t f Hf) as (f1 & Hf1 & E). rewrite E in R. rewrite app_length in Hm. cbn [List.length] in Hm. rewrite app_length in Hm. cbn [List.length] in Hm.
      destruct (IH t ltac:(lia) p' q f1 Kp' Hf1 R Sq Kq) as (b & n & -> & Hb). exists (k ++ x3a :: v ++ LF :: b), n. split; [rewrite <- app_assoc; cbn [app]; rewrite <- app_assoc; reflexivity|].
      constructor; assumption.
    + exfalso. apply cut_none in Er. pose proof R as R0. destruct f as [|f]; [lia|]. cbn [run step] in R. unfold step_header_key in R.
      destruct (k ++ x3a :: r) as [|c0 d] eqn:Ek; [destruct k; discriminate|]. destruct (name_first k r Hk c0 d Ek) as [X1 X2]. rewrite X1, X2 in R. rewrite <- Ek in R. rewrite cut_app in R by apply Hk.
      destruct (buf_append (p_key p) k) as [b|]; [|discriminate]. cbn [buf_finish] in R. cbn zeta in R. destruct (_ >? _); [discriminate|].
      assert (Hf2 : (List.length r < f)%nat) by (apply (f_equal (@List.length byte)) in Ek; rewrite app_length in Ek; cbn [List.length] in *; lia).
      set (p1 := set_p_hnum _ _) in *. destruct (key_is _ _).
      * destruct (digits_span r) as (ds & rest & -> & Hd & [->|(c1 & r1 & -> & Hs & Hg)]).
        -- erewrite ret_run in R; [|cbn [step]; unfold step_content_length; rewrite app_nil_r; rewrite clen_loop_all by exact Hd; reflexivity|exact Hf2]. injection R as <-. discriminate.
        -- destruct (Byte.eqb c1 CR) eqn:Y1.
           ++ apply beq_eq in Y1. subst c1. destruct (goto_run cfg f eContentLength p1 (ds ++ CR :: r1) eContentLengthCR (let n := fst (clen_loop (p_clen p1) ds) in set_p_req (set_content_length n (p_req p1)) (set_p_clen n p1)) r1
                ltac:(cbn [step]; unfold step_content_length; rewrite clen_stop by (try exact Hd; assumption); reflexivity) Hf2) as (f1 & Hf1 & E). rewrite E in R.
              destruct r1 as [|c2 r2]; [erewrite ret_run in R; [|reflexivity|exact Hf1]; injection R as <-; discriminate|].
              assert (Y2 : Byte.eqb c2 LF = false) by (apply beq_neq; intros ->; apply Er; apply in_or_app; right; right; left; reflexivity).
              erewrite ret_run in R; [|cbn [step]; unfold step_content_length_cr; rewrite Y2; reflexivity|exact Hf1]. discriminate.
           ++ assert (Y2 : Byte.eqb c1 LF = false) by (apply beq_neq; intros ->; apply Er; apply in_or_app; right; left; reflexivity).
              erewrite ret_run in R; [|cbn [step]; unfold step_content_length; rewrite clen_stop by (try exact Hd; assumption); cbn zeta; rewrite Y1, Y2; reflexivity|exact Hf2]. discriminate.
      * apply cut_none in Er. destruct (buf_append (p_val p1) r) as [b1|] eqn:Ev.
        -- destruct (buf_seglen b1 >? c_max_value cfg) eqn:Es;
             (erewrite ret_run in R; [|cbn [step]; unfold step_header_value; rewrite Er, Ev, Es; reflexivity|exact Hf2]); [discriminate|]. injection R as <-. discriminate.
        -- erewrite ret_run in R; [|cbn [step]; unfold step_header_value; rewrite Er, Ev; reflexivity|exact Hf2]. discriminate.
Qed.
