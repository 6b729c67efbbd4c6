(* The parser on arbitrary bytes, arriving in different pieces. *)
From Verif Require Import M_Base L_Base M_Status M_Method M_Proto M_Uri M_KeyValue M_Query M_Request
  M_Parser S_Parser S_Split L_Head L_Safe.
Local Arguments cut : simpl never.
Local Arguments cut_last : simpl never.
Local Arguments clen_loop : simpl never.
Local Open Scope Z_scope.

Lemma len_app : forall a b : bytes, len (a ++ b) = len a + len b.
Proof. intros a b. unfold len. rewrite app_length. lia. Qed.
Lemma len_nonneg : forall a : bytes, 0 <= len a.
Proof. intros a. unfold len. lia. Qed.
Lemma len_cons : forall c (a : bytes), len (c :: a) = 1 + len a.
Proof. intros c a. unfold len. cbn [List.length]. lia. Qed.
Lemma cut_more : forall d c a r d2, cut d c = Some (a, r) -> cut (d ++ d2) c = Some (a, r ++ d2).
Proof. intros d c a r d2 H. apply cut_some in H. destruct H as [-> Hn]. apply cut_some. split; [rewrite <- app_assoc; reflexivity|exact Hn]. Qed.
Lemma cut_later : forall d c d2, cut d c = None -> cut (d ++ d2) c = match cut d2 c with Some (a, r) => Some (d ++ a, r) | None => None end.
Proof.
  intros d c d2 H. apply cut_none in H. destruct (cut d2 c) as [[a r]|] eqn:E.
  - apply cut_some in E. destruct E as [-> Hn]. apply cut_some. split; [rewrite <- app_assoc; reflexivity|]. rewrite in_app_iff. tauto.
  - apply cut_none in E. apply cut_none. rewrite in_app_iff. tauto.
Qed.

(* ---- parsers that differ in what the start line buffer is done with ---- *)
Definition with_done (d : bytes) (p : parser) : parser := set_p_start (Buffer d (b_seg (p_start p)) (b_max (p_start p))) p.
Definition near (p q : parser) : Prop := exists s d, q = set_p_state s (with_done d p).
Lemma near_refl : forall p, near p p.
Proof. intros p. exists (p_state p), (b_done (p_start p)). destruct p as [s [d g m] k v hk hn cl r]. reflexivity. Qed.
Definition rsim (r1 r2 : pres) : Prop :=
  match r1, r2 with
  | RPending p, RPending q => near p q /\ p_state p = p_state q
  | RDone p e, RDone q e' => p = q /\ e = e'
  | RErr p e, RErr q e' => e = e' /\ p_req p = p_req q
  | RPanic, RPanic => True
  | _, _ => False
  end.
Definition jsim (j1 j2 : jump) : Prop :=
  match j1, j2 with
  | Goto l p d, Goto l' q d' => l = l' /\ near p q /\ d = d'
  | Ret r, Ret r' => rsim r r'
  | _, _ => False
  end.
Definition used (p : parser) : Z := len (b_done (p_start p)) + len (b_seg (p_start p)).
Definition roomy (l : pstate) (p : parser) (d : bytes) : Prop :=
  match l with
  | eMethod => used p + len (start_part d) <= b_max (p_start p)
  | ePath => used p + len (line_part d) <= b_max (p_start p)
  | _ => True
  end.
Lemma append_room : forall b d, len (b_done b) + len (b_seg b) + len d <= b_max b -> buf_append b d = Some (Buffer (b_done b) (b_seg b ++ d) (b_max b)).
Proof. intros b d H. unfold buf_append. destruct (Z.gtb_spec (len (b_done b) + len (b_seg b) + len d) (b_max b)); [lia|reflexivity]. Qed.
Lemma start_method : forall d m r, cut d SP = Some (m, r) -> len m + len (line_part r) <= len (start_part d).
Proof. intros d m r H. unfold start_part. rewrite H, len_app. lia. Qed.
Lemma line_le : forall d, len (line_part d) <= len d.
Proof. intros d. unfold line_part. destruct (cut d LF) as [[l r]|] eqn:E; [|lia]. apply cut_some in E. destruct E as [-> _]. rewrite len_app. pose proof (len_nonneg (LF :: r)). lia. Qed.

(* the method label, once the method is complete *)
Definition method_end (p : parser) (mv rest : bytes) : jump :=
  match mv with
  | [] => Ret (RErr p ErrBadRequest)
  | _ => let mm := method_parse mv in
         let p := set_p_req (set_method mm (p_req p)) p in
         match mm with MUnknown => Ret (RErr p ErrMethodNotImplemented) | _ => Goto ePath p rest end
  end.
Lemma method_room : forall p d, roomy eMethod p d ->
  step_method p d = match cut d SP with
    | None => Ret (RPending (set_p_start (Buffer (b_done (p_start p)) (b_seg (p_start p) ++ d) (b_max (p_start p))) p))
    | Some (m, rest) =>
        method_end (match b_seg (p_start p) with [] => p | _ => set_p_start (Buffer (b_done (p_start p) ++ b_seg (p_start p) ++ m) [] (b_max (p_start p))) p end)
          (b_seg (p_start p) ++ m) rest
    end.
Proof.
  intros p d H. unfold roomy, used in H. unfold step_method. destruct (cut d SP) as [[m rest]|] eqn:E.
  - pose proof (start_method d m rest E) as L. pose proof (len_nonneg (line_part rest)).
    unfold buf_seglen. destruct (b_seg (p_start p)) as [|x g] eqn:Eg; [reflexivity|].
    destruct (Z.eqb_spec (len (x :: g)) 0) as [Z0|_]; [rewrite len_cons in Z0; pose proof (len_nonneg g); lia|].
    rewrite <- Eg in *. rewrite append_room by lia. unfold buf_finish. cbn [b_seg b_done b_max]. reflexivity.
  - unfold start_part in H. rewrite E in H. rewrite append_room by lia. reflexivity.
Qed.
Lemma path_room : forall p d, roomy ePath p d ->
  step_path p d = match cut d LF with
    | None => Ret (RPending (set_p_state ePath (set_p_start (Buffer (b_done (p_start p)) (b_seg (p_start p) ++ d) (b_max (p_start p))) p)))
    | Some (l, rest) =>
        match request_line (set_p_start (Buffer (b_done (p_start p) ++ b_seg (p_start p) ++ l) [] (b_max (p_start p))) p) (b_seg (p_start p) ++ l) with
        | inl r => Ret r
        | inr p' => Goto eHeaderKey p' rest
        end
    end.
Proof.
  intros p d H. unfold roomy, used, line_part in H. unfold step_path. destruct (cut d LF) as [[m rest]|] eqn:E; rewrite append_room by lia; reflexivity.
Qed.
(* ---- the request line does not look at the buffer ---- *)
Definition lsim (a b : pres + parser) : Prop :=
  match a, b with inl r, inl r' => rsim r r' | inr p, inr q => near p q | _, _ => False end.
Lemma near_req : forall p q g, near p q -> near (set_p_req (g (p_req p)) p) (set_p_req (g (p_req q)) q).
Proof. intros p q g (s & d & ->). exists s, d. reflexivity. Qed.
Lemma line_sim : forall p q line, near p q -> lsim (request_line p line) (request_line q line).
Proof.
  intros p q line (s & d & ->). unfold request_line.
  destruct (cut_last line SP) as [[rp rt]|]; [|split; reflexivity].
  destruct (last_byte rt) as [c|]; [|exact I].
  destruct (cut rp x3f) as [[pa qq]|].
  - destruct pa as [|x pa]; [split; reflexivity|]. destruct (uri_decode (x :: pa)); [|split; reflexivity].
    destruct (proto_from_bytes _); try (split; reflexivity); exists s, d; reflexivity.
  - destruct rp as [|x rp]; [split; reflexivity|]. destruct (uri_decode (x :: rp)); [|split; reflexivity].
    destruct (proto_from_bytes _); try (split; reflexivity); exists s, d; reflexivity.
Qed.
Lemma method_end_sim : forall p q mv rest, near p q -> jsim (method_end p mv rest) (method_end q mv rest).
Proof.
  intros p q mv rest H. unfold method_end. destruct mv as [|x mv]; [destruct H as (s & d & ->); split; reflexivity|].
  pose proof (near_req p q (set_method (method_parse (x :: mv))) H) as K. cbn zeta.
  destruct (method_parse (x :: mv)); try (split; [reflexivity|]; split; [exact K|reflexivity]).
  split; [reflexivity|]. destruct K as (s & d & ->). reflexivity.
Qed.
Lemma step_near : forall cfg l p q d, near p q -> (l = eMethod -> p_state p = p_state q) -> roomy l p d -> roomy l q d -> jsim (step cfg l p d) (step cfg l q d).
Proof.
  intros cfg l p q d (s & dd & ->) Hs Rp Rq. destruct l; cbn [step].
  - rewrite (method_room p d Rp), (method_room (set_p_state s (with_done dd p)) d Rq). cbn [set_p_state with_done set_p_start p_start b_seg b_done b_max].
    destruct (cut d SP) as [[m rest]|].
    + apply method_end_sim. destruct (b_seg (p_start p)) as [|x g]; [exists s, dd; reflexivity|eexists s, _; reflexivity].
    + split; [exists s, dd; reflexivity|exact (Hs eq_refl)].
  - rewrite (path_room p d Rp), (path_room (set_p_state s (with_done dd p)) d Rq). cbn [set_p_state with_done set_p_start p_start b_seg b_done b_max].
    destruct (cut d LF) as [[m rest]|]; [|split; [exists ePath, dd; reflexivity|reflexivity]].
    match goal with |- jsim (match request_line ?a ?x with _ => _ end) (match request_line ?b _ with _ => _ end) =>
      assert (N : near a b) by (eexists s, _; reflexivity); pose proof (line_sim a b x N) as L; destruct (request_line a x), (request_line b x) end; try contradiction.
    + exact L.
    + split; [reflexivity|]. split; [exact L|reflexivity].
  - unfold step_header_key. destruct d as [|c d]; [split; [exists eHeaderKey, dd; reflexivity|reflexivity]|]. destruct (Byte.eqb c LF); [split; reflexivity|].
    destruct (Byte.eqb c CR); [split; [reflexivity|]; split; [exists s, dd; reflexivity|reflexivity]|].
    destruct (cut (c :: d) x3a) as [[k rest]|]; cbn [set_p_state with_done set_p_start p_key].
    + destruct (buf_append (p_key p) k) as [b|]; [|split; reflexivity]. cbn [buf_finish set_p_hnum set_p_hkey set_p_key p_hnum].
      destruct (_ >? _); [split; reflexivity|]. destruct (key_is _ _); (split; [reflexivity|]; split; [exists s, dd; reflexivity|reflexivity]).
    + destruct (buf_append (p_key p) (c :: d)); [split; [exists eHeaderKey, dd; reflexivity|reflexivity]|split; reflexivity].
  - unfold step_content_length. cbn [set_p_state with_done set_p_start p_clen]. destruct (clen_loop (p_clen p) d) as [n [d2|]]; [|split; [exists eContentLength, dd; reflexivity|reflexivity]].
    destruct d2 as [|c d2]; [exact I|]. destruct (Byte.eqb c CR); [split; [reflexivity|]; split; [exists s, dd; reflexivity|reflexivity]|].
    destruct (Byte.eqb c LF); [split; [reflexivity|]; split; [exists s, dd; reflexivity|reflexivity]|split; reflexivity].
  - unfold step_content_length_cr. destruct d as [|c d]; [split; [exists eContentLengthCR, dd; reflexivity|reflexivity]|].
    destruct (Byte.eqb c LF); [split; [reflexivity|]; split; [exists s, dd; reflexivity|reflexivity]|split; reflexivity].
  - unfold step_header_value. cbn [set_p_state with_done set_p_start p_val]. destruct (cut d LF) as [[v rest]|].
    + destruct (buf_append (p_val p) v) as [b|]; [|split; reflexivity]. destruct (_ >? _); [split; reflexivity|].
      cbn [buf_finish]. destruct (last_byte _); [|exact I]. split; [reflexivity|]. split; [exists s, dd; reflexivity|reflexivity].
    + destruct (buf_append (p_val p) d) as [b|]; [|split; reflexivity]. destruct (_ >? _); [split; reflexivity|split; [exists eHeaderValue, dd; reflexivity|reflexivity]].
  - unfold step_crlfcr. destruct d as [|c d]; [split; [exists eHeaderValueCRLFCR, dd; reflexivity|reflexivity]|]. destruct (Byte.eqb c LF); split; reflexivity.
Qed.

(* ---- what a step keeps ---- *)
Definition guard (l : pstate) (p : parser) (d : bytes) : Prop :=
  match l with
  | eMethod => b_seg (p_key p) = [] /\ p_state p = eMethod /\
               (forall m r, cut d SP = Some (m, r) -> MidLine r)
  | eHeaderKey => match b_seg (p_key p) with [] => NamedLines d | _ => MidName d end
  | eHeaderValueCRLFCR => True
  | _ => b_seg (p_key p) = [] /\ MidLine d
  end.
Definition inv (l : pstate) (p : parser) (d : bytes) : Prop := guard l p d /\ roomy l p d.
Lemma midline_cut : forall d l r, MidLine d -> cut d LF = Some (l, r) -> NamedLines r.
Proof.
  intros d l r H E. apply cut_some in E. destruct E as [-> Hn]. inversion H as [v Hv Ev|v t Hv Ht Ev].
  - exfalso. apply Hv. rewrite in_app_iff. right. left. reflexivity.
  - assert (E : cut (l ++ LF :: r) LF = Some (v, t)) by (rewrite <- Ev; apply cut_app; exact Hv). rewrite cut_app in E by exact Hn. injection E as _ <-. exact Ht.
Qed.
Lemma named_cut : forall c d k r, NamedLines (c :: d) -> c <> LF -> c <> CR -> cut (c :: d) x3a = Some (k, r) -> MidLine r.
Proof.
  intros c d k r H Hl Hc E. inversion H as [t Ht|t Ht|t Ht Et]; [congruence|congruence|]. subst t.
  apply cut_some in E. destruct E as [E Hn]. inversion Ht as [n Hp En|n t Hp Hm En].
  - exfalso. destruct Hp as (_ & _ & Hp). apply Hp. rewrite E. rewrite in_app_iff. right. left. reflexivity.
  - destruct Hp as (_ & _ & Hp). assert (X : cut (c :: d) x3a = Some (n, t)) by (rewrite <- En; apply cut_app; exact Hp). rewrite E, cut_app in X by exact Hn. injection X as _ <-. exact Hm.
Qed.
Lemma midname_cut : forall d k r, MidName d -> cut d x3a = Some (k, r) -> MidLine r.
Proof.
  intros d k r Ht E. apply cut_some in E. destruct E as [E Hn]. inversion Ht as [n Hp En|n t Hp Hm En].
  - exfalso. destruct Hp as (_ & _ & Hp). apply Hp. rewrite E. rewrite in_app_iff. right. left. reflexivity.
  - destruct Hp as (_ & _ & Hp). assert (X : cut d x3a = Some (n, t)) by (rewrite <- En; apply cut_app; exact Hp). rewrite E, cut_app in X by exact Hn. injection X as _ <-. exact Hm.
Qed.
Lemma clen_rest : forall d n n' d', clen_loop n d = (n', Some d') -> exists a, d = a ++ d' /\ ~ In LF a.
Proof.
  induction d as [|c d IH]; intros n n' d' H; unfold clen_loop in H; fold clen_loop in H; [discriminate|].
  destruct (Byte.eqb c SP) eqn:E1; [|destruct (is_digit c) eqn:E2].
  - destruct (IH _ _ _ H) as (a & -> & Ha). exists (c :: a). split; [reflexivity|]. intros [K|K]; [subst c; discriminate|contradiction].
  - destruct (IH _ _ _ H) as (a & -> & Ha). exists (c :: a). split; [reflexivity|]. intros [K|K]; [subst c; discriminate|contradiction].
  - injection H as _ <-. exists []. split; [reflexivity|intros []].
Qed.
Lemma midline_app : forall a d, MidLine (a ++ d) -> ~ In LF a -> MidLine d.
Proof.
  intros a d H Ha. destruct (cut d LF) as [[l r]|] eqn:E.
  - assert (X : cut (a ++ d) LF = Some (a ++ l, r)) by (rewrite cut_later by (apply cut_none; exact Ha); rewrite E; reflexivity).
    pose proof (midline_cut _ _ _ H X) as N. apply cut_some in E. destruct E as [-> Hn]. apply Ml_line; assumption.
  - apply cut_none in E. apply Ml_end. exact E.
Qed.
Lemma midline_named : forall d, MidLine (LF :: d) -> NamedLines d.
Proof. intros d H. apply (midline_cut (LF :: d) [] d H). exact (cut_app [] LF d (fun x => x)). Qed.
Lemma request_line_key : forall p d q, request_line p d = inr q -> p_key q = p_key p.
Proof.
  intros p d q. unfold request_line. destruct (cut_last d SP) as [[rp rt]|]; [|discriminate]. destruct (last_byte rt); [|discriminate].
  destruct (cut rp x3f) as [[pa qq]|].
  - destruct pa; [discriminate|]. destruct (uri_decode _); [|discriminate]. destruct (proto_from_bytes _); intros H; try discriminate; injection H as <-; reflexivity.
  - destruct rp; [discriminate|]. destruct (uri_decode _); [|discriminate]. destruct (proto_from_bytes _); intros H; try discriminate; injection H as <-; reflexivity.
Qed.
Lemma step_keeps : forall cfg l p d l' p' d', inv l p d -> step cfg l p d = Goto l' p' d' -> inv l' p' d'.
Proof.
  intros cfg l p d l' p' d' [G R] H. destruct l; cbn [step] in H.
  - rewrite (method_room p d R) in H. destruct G as (Gk & Gs & Gm). destruct (cut d SP) as [[m rest]|] eqn:E; [|discriminate].
    specialize (Gm m rest eq_refl). pose proof (start_method d m rest E) as L. unfold roomy, used in R.
    set (p1 := match b_seg (p_start p) with [] => p | _ => _ end) in H. assert (Hk : p_key p1 = p_key p) by (unfold p1; destruct (b_seg (p_start p)); reflexivity).
    assert (Hu : used p1 + len (line_part rest) <= b_max (p_start p1)).
    { unfold p1, used. destruct (b_seg (p_start p)) as [|x g] eqn:Eg.
      - rewrite Eg. pose proof (len_nonneg m). cbn [len] in *. change (len []) with 0 in *. lia.
      - cbn [set_p_start p_start b_done b_seg b_max]. rewrite !len_app. change (len []) with 0. lia. }
    unfold method_end in H. destruct (b_seg (p_start p) ++ m) as [|x mv]; [discriminate|]. cbn zeta in H.
    destruct (method_parse (x :: mv)); try discriminate; injection H as <- <- <-; (split; [split; [cbn [set_p_req p_key]; rewrite Hk; exact Gk|exact Gm]|exact Hu]).
  - rewrite (path_room p d R) in H. destruct G as (Gk & Gm). destruct (cut d LF) as [[m rest]|] eqn:E; [|discriminate].
    destruct (request_line _ _) as [r|q] eqn:Eq; [discriminate|]. injection H as <- <- <-. split; [|exact I]. apply request_line_key in Eq. unfold guard. rewrite Eq. cbn [set_p_start p_key]. rewrite Gk.
    exact (midline_cut _ _ _ Gm E).
  - unfold step_header_key in H. destruct d as [|c d]; [discriminate|]. destruct (Byte.eqb c LF) eqn:E1; [discriminate|].
    destruct (Byte.eqb c CR) eqn:E2; [injection H as <- <- <-; split; exact I|].
    destruct (cut (c :: d) x3a) as [[k rest]|] eqn:E; [|destruct (buf_append (p_key p) (c :: d)); discriminate].
    destruct (buf_append (p_key p) k) as [b|]; [|discriminate]. cbn [buf_finish] in H. cbn zeta in H.
    assert (M : MidLine rest).
    { unfold guard in G. destruct (b_seg (p_key p)); [|exact (midname_cut _ _ _ G E)]. apply (named_cut c d k rest G); [intros ->; discriminate|intros ->; discriminate|exact E]. }
    destruct (_ >? _); [discriminate|]. destruct (key_is _ _); injection H as <- <- <-; (split; [split; [reflexivity|exact M]|exact I]).
  - unfold step_content_length in H. destruct G as (Gk & Gm). destruct (clen_loop (p_clen p) d) as [n [d2|]] eqn:E; [|discriminate].
    destruct d2 as [|c d2]; [discriminate|]. destruct (clen_rest _ _ _ _ E) as (a & -> & Ha). apply midline_app in Gm; [|exact Ha].
    destruct (Byte.eqb c CR) eqn:E1; [|destruct (Byte.eqb c LF) eqn:E2; [|discriminate]]; injection H as <- <- <-.
    + split; [|exact I]. split; [exact Gk|]. apply (midline_app [c] d2 Gm). intros [ -> |[]]. discriminate.
    + split; [|exact I]. unfold guard. cbn [set_p_req set_p_clen p_key]. rewrite Gk. apply beq_eq in E2. subst c. exact (midline_named d2 Gm).
  - unfold step_content_length_cr in H. destruct G as (Gk & Gm). destruct d as [|c d]; [discriminate|]. destruct (Byte.eqb c LF) eqn:E2; [|discriminate]. injection H as <- <- <-.
    split; [|exact I]. unfold guard. rewrite Gk. apply beq_eq in E2. subst c. exact (midline_named d Gm).
  - unfold step_header_value in H. destruct G as (Gk & Gm). destruct (cut d LF) as [[v rest]|] eqn:E.
    + destruct (buf_append (p_val p) v) as [b|]; [|discriminate]. destruct (_ >? _); [discriminate|]. cbn [buf_finish] in H. cbn zeta in H.
      destruct (last_byte _); [|discriminate]. injection H as <- <- <-. split; [|exact I]. unfold guard. cbn [set_p_req set_p_val p_key]. rewrite Gk. exact (midline_cut _ _ _ Gm E).
    + destruct (buf_append (p_val p) d) as [b|]; [|discriminate]. destruct (_ >? _); discriminate.
  - unfold step_crlfcr in H. destruct d as [|c d]; [discriminate|]. destruct (Byte.eqb c LF); discriminate.
Qed.

(* ---- more bytes behind ---- *)
Lemma line_more : forall a b, len (line_part a) <= len (line_part (a ++ b)).
Proof.
  intros a b. unfold line_part. destruct (cut a LF) as [[l r]|] eqn:E; [rewrite (cut_more _ _ _ _ b E); lia|].
  rewrite (cut_later _ _ b E). destruct (cut b LF) as [[l r]|]; rewrite len_app; [pose proof (len_nonneg l)|pose proof (len_nonneg b)]; lia.
Qed.
Lemma start_more : forall a b, len (start_part a) <= len (start_part (a ++ b)).
Proof.
  intros a b. unfold start_part. destruct (cut a SP) as [[l r]|] eqn:E.
  - rewrite (cut_more _ _ _ _ b E). rewrite !len_app. pose proof (line_more r b). lia.
  - rewrite (cut_later _ _ b E). destruct (cut b SP) as [[l r]|]; rewrite ?len_app.
    + pose proof (len_nonneg l). pose proof (len_nonneg (line_part r)). lia.
    + pose proof (len_nonneg b). lia.
Qed.
Lemma roomy_less : forall l p a b, roomy l p (a ++ b) -> roomy l p a.
Proof. intros l p a b H. destruct l; try exact I; unfold roomy in *; [pose proof (start_more a b)|pose proof (line_more a b)]; lia. Qed.
Lemma midname_app : forall a d, MidName (a ++ d) -> ~ In x3a a -> MidName d.
Proof.
  intros a d H Ha. destruct (cut d x3a) as [[n t]|] eqn:E.
  - assert (X : cut (a ++ d) x3a = Some (a ++ n, t)) by (rewrite cut_later by (apply cut_none; exact Ha); rewrite E; reflexivity).
    pose proof (midname_cut _ _ _ H X) as M. apply cut_some in E. destruct E as [-> Hn]. apply Mn_colon; [|exact M].
    inversion H as [m Hp Em|m t' Hp Hm Em].
    + exfalso. destruct Hp as (_ & _ & Hp). apply Hp. rewrite !in_app_iff. right. right. left. reflexivity.
    + assert (Y : cut (a ++ n ++ x3a :: t) x3a = Some (m, t')) by (rewrite <- Em; apply cut_app; apply Hp).
      rewrite X in Y. injection Y as <- <-. destruct Hp as (H1 & H2 & H3). rewrite in_app_iff in H1, H2, H3. repeat split; tauto.
  - apply cut_none in E. apply Mn_end. inversion H as [m Hp Em|m t' Hp Hm Em].
    + destruct Hp as (H1 & H2 & H3). rewrite in_app_iff in H1, H2, H3. repeat split; tauto.
    + exfalso. assert (X : In x3a (a ++ d)) by (rewrite <- Em; rewrite in_app_iff; right; left; reflexivity). rewrite in_app_iff in X. tauto.
Qed.
Lemma midname_first : forall c d, MidName (c :: d) -> Byte.eqb c LF = false /\ Byte.eqb c CR = false.
Proof.
  intros c d H. inversion H as [m Hp Em|m t' Hp Hm Em].
  - destruct Hp as (H1 & H2 & _). split; apply beq_neq; intros ->; [apply H2|apply H1]; left; reflexivity.
  - destruct m as [|x m]; cbn [app] in Em; injection Em as <- Em; [split; reflexivity|].
    destruct Hp as (H1 & H2 & _). split; apply beq_neq; intros ->; [apply H2|apply H1]; left; reflexivity.
Qed.
Lemma named_mid : forall c d, NamedLines (c :: d) -> Byte.eqb c LF = false -> Byte.eqb c CR = false -> MidName (c :: d).
Proof. intros c d H H1 H2. inversion H; subst; [discriminate|discriminate|assumption]. Qed.
Lemma append_more : forall b d b' e, buf_append b d = Some b' -> buf_append b (d ++ e) = buf_append b' e.
Proof.
  intros b d b' e H. unfold buf_append in H. destruct (Z.gtb_spec (len (b_done b) + len (b_seg b) + len d) (b_max b)) as [|L]; [discriminate|]. injection H as <-.
  unfold buf_append. cbn [b_done b_seg b_max]. rewrite !len_app, app_assoc, !Z.add_assoc. reflexivity.
Qed.
Lemma append_full : forall b d e, buf_append b d = None -> buf_append b (d ++ e) = None.
Proof.
  intros b d e H. unfold buf_append in *. destruct (Z.gtb_spec (len (b_done b) + len (b_seg b) + len d) (b_max b)) as [L|]; [|discriminate].
  rewrite len_app. pose proof (len_nonneg e). destruct (Z.gtb_spec (len (b_done b) + len (b_seg b) + (len d + len e)) (b_max b)); [reflexivity|lia].
Qed.
Lemma append_seg : forall b d b', buf_append b d = Some b' -> b_seg b' = b_seg b ++ d.
Proof. intros b d b' H. unfold buf_append in H. destruct (_ >? _); [discriminate|]. injection H as <-. reflexivity. Qed.
Lemma near_start : forall p b b', b_seg b = b_seg b' -> b_max b = b_max b' -> near (set_p_start b p) (set_p_start b' p).
Proof. intros p [d g m] [d' g' m'] H1 H2. cbn [b_seg b_max] in *. subst. exists (p_state p), d'. reflexivity. Qed.
Lemma start_same : forall p, p = set_p_start (p_start p) p.
Proof. intros p. destruct p. reflexivity. Qed.
Lemma clen_more : forall d n n' d' e, clen_loop n d = (n', Some d') -> clen_loop n (d ++ e) = (n', Some (d' ++ e)).
Proof.
  induction d as [|c d IH]; intros n n' d' e H; unfold clen_loop in *; fold clen_loop in *; [discriminate|]. cbn [app]. unfold clen_loop. fold clen_loop.
  destruct (Byte.eqb c SP); [apply IH; exact H|]. destruct (is_digit c); [apply IH; exact H|]. injection H as <- <-. reflexivity.
Qed.
Lemma clen_later : forall d n n' e, clen_loop n d = (n', None) -> clen_loop n (d ++ e) = clen_loop n' e.
Proof.
  induction d as [|c d IH]; intros n n' e H; unfold clen_loop in H; fold clen_loop in H; [injection H as <-; reflexivity|]. cbn [app]. unfold clen_loop. fold clen_loop.
  destruct (Byte.eqb c SP); [apply IH; exact H|]. destruct (is_digit c); [apply IH; exact H|]. discriminate.
Qed.
Lemma clen_no_lf : forall d n n', clen_loop n d = (n', None) -> ~ In LF d.
Proof.
  induction d as [|c d IH]; intros n n' H; unfold clen_loop in H; fold clen_loop in H; [intros []|].
  destruct (Byte.eqb c SP) eqn:E1; [|destruct (is_digit c) eqn:E2; [|discriminate]].
  - intros [K|K]; [subst c; discriminate|]. exact (IH _ _ H K).
  - intros [K|K]; [subst c; discriminate|]. exact (IH _ _ H K).
Qed.

(* a step that jumps, jumps the same way with more bytes behind *)
Lemma step_goto : forall cfg l p d d2 l' p' d', inv l p (d ++ d2) -> step cfg l p d = Goto l' p' d' -> step cfg l p (d ++ d2) = Goto l' p' (d' ++ d2).
Proof.
  intros cfg l p d d2 l' p' d' [G R] H. pose proof (roomy_less l p d d2 R) as R1. destruct l; cbn [step] in *.
  - rewrite (method_room p d R1) in H. rewrite (method_room p (d ++ d2) R). destruct (cut d SP) as [[m r]|] eqn:E; [|discriminate]. rewrite (cut_more _ _ _ _ d2 E).
    unfold method_end in *. destruct (b_seg (p_start p) ++ m); [discriminate|]. cbn zeta in *. destruct (method_parse _); try discriminate; injection H as <- <- <-; reflexivity.
  - rewrite (path_room p d R1) in H. rewrite (path_room p (d ++ d2) R). destruct (cut d LF) as [[m r]|] eqn:E; [|discriminate]. rewrite (cut_more _ _ _ _ d2 E).
    destruct (request_line _ _); [discriminate|]. injection H as <- <- <-. reflexivity.
  - unfold step_header_key in *. destruct d as [|c d]; [discriminate|]. cbn [app]. destruct (Byte.eqb c LF); [discriminate|]. destruct (Byte.eqb c CR); [injection H as <- <- <-; reflexivity|].
    destruct (cut (c :: d) x3a) as [[k r]|] eqn:E; [|destruct (buf_append (p_key p) (c :: d)); discriminate]. apply (cut_more _ _ _ _ d2) in E. cbn [app] in E. rewrite E.
    destruct (buf_append (p_key p) k) as [b|]; [|discriminate]. cbn [buf_finish] in *. cbn zeta in *. destruct (_ >? _); [discriminate|]. destruct (key_is _ _); injection H as <- <- <-; reflexivity.
  - unfold step_content_length in *. destruct (clen_loop (p_clen p) d) as [n [r|]] eqn:E; [|discriminate]. rewrite (clen_more _ _ _ _ d2 E). cbn zeta in *. destruct r as [|c r]; [discriminate|]. cbn [app].
    destruct (Byte.eqb c CR); [injection H as <- <- <-; reflexivity|]. destruct (Byte.eqb c LF); [injection H as <- <- <-; reflexivity|discriminate].
  - unfold step_content_length_cr in *. destruct d as [|c d]; [discriminate|]. cbn [app]. destruct (Byte.eqb c LF); [injection H as <- <- <-; reflexivity|discriminate].
  - unfold step_header_value in *. destruct (cut d LF) as [[m r]|] eqn:E.
    + rewrite (cut_more _ _ _ _ d2 E). destruct (buf_append (p_val p) m) as [b|]; [|discriminate]. destruct (_ >? _); [discriminate|]. cbn [buf_finish] in *. cbn zeta in *.
      destruct (last_byte _); [|discriminate]. injection H as <- <- <-. reflexivity.
    + destruct (buf_append (p_val p) d) as [b|]; [|discriminate]. destruct (_ >? _); discriminate.
  - unfold step_crlfcr in H. destruct d as [|c d]; [discriminate|]. destruct (Byte.eqb c LF); discriminate.
Qed.
(* a step that ends, ends the same way with more bytes behind *)
Definition rmore (d2 : bytes) (r : pres) (j : jump) : Prop :=
  match r with
  | RPending _ => True
  | RDone p e => j = Ret (RDone p (e ++ d2))
  | RErr p e => exists q, j = Ret (RErr q e) /\ p_req p = p_req q
  | RPanic => j = Ret RPanic
  | RStuck => True
  end.
Lemma step_ret : forall cfg l p d d2 r, inv l p (d ++ d2) -> step cfg l p d = Ret r -> rmore d2 r (step cfg l p (d ++ d2)).
Proof.
  intros cfg l p d d2 r [G R] H. pose proof (roomy_less l p d d2 R) as R1. destruct l; cbn [step] in *.
  - rewrite (method_room p d R1) in H. rewrite (method_room p (d ++ d2) R). destruct (cut d SP) as [[m rest]|] eqn:E; [|injection H as <-; exact I]. rewrite (cut_more _ _ _ _ d2 E).
    unfold method_end in *. destruct (b_seg (p_start p) ++ m); [injection H as <-; eexists; split; reflexivity|]. cbn zeta in *. destruct (method_parse _); try discriminate; injection H as <-; eexists; split; reflexivity.
  - rewrite (path_room p d R1) in H. rewrite (path_room p (d ++ d2) R). destruct (cut d LF) as [[m rest]|] eqn:E; [|injection H as <-; exact I]. rewrite (cut_more _ _ _ _ d2 E).
    destruct (request_line _ _) as [r0|] eqn:El; [|discriminate]. injection H as <-. unfold request_line in El. destruct r0; try exact I; try reflexivity; [|eexists; split; reflexivity].
    exfalso. revert El. clear. destruct (cut_last _ _) as [[rp rt]|]; [|discriminate]. destruct (last_byte rt); [|discriminate]. destruct (cut rp x3f) as [[pa qq]|].
    + destruct pa; [discriminate|]. destruct (uri_decode _); [|discriminate]. destruct (proto_from_bytes _); discriminate.
    + destruct rp; [discriminate|]. destruct (uri_decode _); [|discriminate]. destruct (proto_from_bytes _); discriminate.
  - unfold step_header_key in *. destruct d as [|c d]; [injection H as <-; exact I|]. cbn [app]. destruct (Byte.eqb c LF); [injection H as <-; reflexivity|]. destruct (Byte.eqb c CR); [discriminate|].
    destruct (cut (c :: d) x3a) as [[k rest]|] eqn:E.
    + apply (cut_more _ _ _ _ d2) in E. cbn [app] in E. rewrite E.
      destruct (buf_append (p_key p) k) as [b|]; [|injection H as <-; eexists; split; reflexivity]. cbn [buf_finish] in *. cbn zeta in *. destruct (_ >? _); [injection H as <-; eexists; split; reflexivity|]. destruct (key_is _ _); discriminate.
    + pose proof (cut_later _ _ d2 E) as E2. cbn [app] in E2. rewrite E2. destruct (buf_append (p_key p) (c :: d)) as [b|] eqn:Eb; [injection H as <-; exact I|].
      injection H as <-. destruct (cut d2 x3a) as [[k rest]|].
      * pose proof (append_full _ _ k Eb) as Y. cbn [app] in Y. cbn [app]. rewrite Y. eexists. split; reflexivity.
      * pose proof (append_full _ _ d2 Eb) as Y. cbn [app] in Y. rewrite Y. eexists. split; reflexivity.
  - unfold step_content_length in *. destruct (clen_loop (p_clen p) d) as [n [rest|]] eqn:E; [|injection H as <-; exact I]. rewrite (clen_more _ _ _ _ d2 E). cbn zeta in *. destruct rest as [|c rest].
    + exfalso. revert E. clear. generalize (p_clen p). induction d as [|c d IH]; intros z E; unfold clen_loop in E; fold clen_loop in E; [discriminate|].
      destruct (Byte.eqb c SP); [exact (IH _ E)|]. destruct (is_digit c); [exact (IH _ E)|]. discriminate.
    + cbn [app]. destruct (Byte.eqb c CR); [discriminate|]. destruct (Byte.eqb c LF); [discriminate|]. injection H as <-. eexists. split; reflexivity.
  - unfold step_content_length_cr in *. destruct d as [|c d]; [injection H as <-; exact I|]. cbn [app]. destruct (Byte.eqb c LF); [discriminate|]. injection H as <-. eexists. split; reflexivity.
  - unfold step_header_value in *. destruct (cut d LF) as [[m rest]|] eqn:E.
    + rewrite (cut_more _ _ _ _ d2 E). destruct (buf_append (p_val p) m) as [b|]; [|injection H as <-; eexists; split; reflexivity]. destruct (_ >? _); [injection H as <-; eexists; split; reflexivity|]. cbn [buf_finish] in *. cbn zeta in *.
      destruct (last_byte _); [discriminate|]. injection H as <-. reflexivity.
    + rewrite (cut_later _ _ d2 E). destruct (buf_append (p_val p) d) as [b|] eqn:Eb.
      * destruct (buf_seglen b >? c_max_value cfg) eqn:Es; [|injection H as <-; exact I]. injection H as <-.
        assert (F : forall e b', buf_append (p_val p) (d ++ e) = Some b' -> (buf_seglen b' >? c_max_value cfg) = true).
        { intros e b' Hb. apply append_seg in Hb. apply append_seg in Eb. unfold buf_seglen in *. rewrite Hb, !len_app. rewrite Eb, len_app in Es. pose proof (len_nonneg e).
          apply Z.gtb_lt in Es. apply Z.gtb_lt. lia. }
        destruct (cut d2 LF) as [[v rest]|].
        -- destruct (buf_append (p_val p) (d ++ v)) eqn:Ev; [rewrite (F _ _ Ev)|]; eexists; split; reflexivity.
        -- destruct (buf_append (p_val p) (d ++ d2)) eqn:Ev; [rewrite (F _ _ Ev)|]; eexists; split; reflexivity.
      * injection H as <-. destruct (cut d2 LF) as [[v rest]|]; [rewrite (append_full _ _ v Eb)|rewrite (append_full _ _ d2 Eb)]; eexists; split; reflexivity.
  - unfold step_crlfcr in *. destruct d as [|c d]; [injection H as <-; exact I|]. cbn [app]. destruct (Byte.eqb c LF); injection H as <-; [reflexivity|eexists; split; reflexivity].
Qed.

Lemma start_later : forall a b, cut a SP = None -> len (start_part (a ++ b)) = len a + len (start_part b).
Proof. intros a b H. unfold start_part. rewrite (cut_later _ _ b H). destruct (cut b SP) as [[m r]|]; rewrite ?len_app; lia. Qed.
Lemma line_later : forall a b, cut a LF = None -> len (line_part (a ++ b)) = len a + len (line_part b).
Proof. intros a b H. unfold line_part. rewrite (cut_later _ _ b H). destruct (cut b LF) as [[m r]|]; rewrite ?len_app; lia. Qed.
(* a step that runs out of bytes, goes on with the next ones *)
Lemma step_pend : forall cfg l p d d2 p', inv l p (d ++ d2) -> step cfg l p d = Ret (RPending p') ->
  inv (p_state p') p' d2 /\ jsim (step cfg l p (d ++ d2)) (step cfg (p_state p') p' d2).
Proof.
  intros cfg l p d d2 p' [G R] H. pose proof (roomy_less l p d d2 R) as R1. destruct l; cbn [step] in H.
  - rewrite (method_room p d R1) in H. destruct (cut d SP) as [[m rest]|] eqn:E.
    { unfold method_end in H. destruct (b_seg (p_start p) ++ m); [discriminate|]. cbn zeta in H. destruct (method_parse _); discriminate. }
    injection H as <-. destruct G as (Gk & Gs & Gm). cbn [set_p_start p_state]. rewrite Gs.
    set (q := set_p_start _ p). assert (Rq : roomy eMethod q d2).
    { unfold roomy, used in *. rewrite (start_later d d2 E) in R. unfold q. cbn [set_p_start p_start b_done b_seg b_max]. rewrite len_app. lia. }
    split.
    + split; [|exact Rq]. split; [exact Gk|]. split; [exact Gs|]. intros m r Em. apply (Gm (d ++ m) r). rewrite (cut_later _ _ d2 E), Em. reflexivity.
    + cbn [step]. rewrite (method_room p (d ++ d2) R), (method_room q d2 Rq), (cut_later _ _ d2 E). unfold q. cbn [set_p_start p_start b_done b_seg b_max]. rewrite <- app_assoc.
      destruct (cut d2 SP) as [[m r]|].
      * rewrite <- app_assoc. apply method_end_sim. destruct (b_seg (p_start p)) as [|x g] eqn:Eg.
        -- rewrite app_nil_l. destruct d as [|y d]; [rewrite (start_same p) at 1; apply near_start; [exact Eg|reflexivity]|].
           rewrite (start_same p) at 1. exact (near_start p _ (Buffer _ [] (b_max (p_start p))) Eg eq_refl).
        -- cbn [app]. exact (near_start p (Buffer _ [] _) (Buffer _ [] (b_max (p_start p))) eq_refl eq_refl).
      * rewrite app_assoc. split; [|reflexivity]. rewrite <- app_assoc. apply near_refl.
  - rewrite (path_room p d R1) in H. destruct (cut d LF) as [[m rest]|] eqn:E.
    { destruct (request_line _ _) as [r0|] eqn:El; [|discriminate]. exfalso. injection H as ->. revert El. clear. unfold request_line.
      destruct (cut_last _ _) as [[rp rt]|]; [|discriminate]. destruct (last_byte rt); [|discriminate]. destruct (cut rp x3f) as [[pa qq]|].
      - destruct pa; [discriminate|]. destruct (uri_decode _); [|discriminate]. destruct (proto_from_bytes _); discriminate.
      - destruct rp; [discriminate|]. destruct (uri_decode _); [|discriminate]. destruct (proto_from_bytes _); discriminate. }
    injection H as <-. destruct G as (Gk & Gm). cbn [set_p_state set_p_start p_state].
    set (q := set_p_state ePath _). assert (Rq : roomy ePath q d2).
    { unfold roomy, used in *. rewrite (line_later d d2 E) in R. unfold q. cbn [set_p_state set_p_start p_start b_done b_seg b_max]. rewrite len_app. lia. }
    split.
    + split; [|exact Rq]. split; [exact Gk|]. apply (midline_app d d2 Gm). apply cut_none. exact E.
    + cbn [step]. rewrite (path_room p (d ++ d2) R), (path_room q d2 Rq), (cut_later _ _ d2 E). unfold q. cbn [set_p_state set_p_start p_start b_done b_seg b_max].
      destruct (cut d2 LF) as [[m r]|].
      * rewrite <- !app_assoc.
        match goal with |- jsim (match request_line ?a ?x with _ => _ end) (match request_line ?b _ with _ => _ end) =>
          assert (N : near a b) by (eexists ePath, _; reflexivity); pose proof (line_sim a b x N) as L; destruct (request_line a x), (request_line b x) end; try contradiction.
        -- exact L.
        -- split; [reflexivity|]. split; [exact L|reflexivity].
      * rewrite <- app_assoc. split; [eexists ePath, _; reflexivity|reflexivity].
  - unfold step_header_key in H. destruct d as [|c d].
    + injection H as <-. cbn [set_p_state p_state]. split; [split; [exact G|exact I]|]. apply step_near; [eexists eHeaderKey, (b_done (p_start p)); destruct p as [s [? ? ?] k v hk hn cl r]; reflexivity|discriminate|exact I|exact I].
    + destruct (Byte.eqb c LF) eqn:E1; [discriminate|]. destruct (Byte.eqb c CR) eqn:E2; [discriminate|].
      destruct (cut (c :: d) x3a) as [[k rest]|] eqn:E.
      { destruct (buf_append (p_key p) k) as [b|]; [|discriminate]. cbn [buf_finish] in H. cbn zeta in H. destruct (_ >? _); [discriminate|]. destruct (key_is _ _); discriminate. }
      destruct (buf_append (p_key p) (c :: d)) as [b|] eqn:Eb; [|discriminate]. injection H as <-. cbn [set_p_state p_state].
      assert (M : MidName ((c :: d) ++ d2)). { unfold guard in G. destruct (b_seg (p_key p)); [|exact G]. apply named_mid; assumption. }
      assert (M2 : MidName d2). { apply (midname_app _ _ M). apply cut_none. exact E. }
      assert (Sg : exists x g, b_seg b = x :: g). { apply append_seg in Eb. destruct (b_seg (p_key p)); cbn [app] in Eb; rewrite Eb; eauto. }
      split; [split; [|exact I]; unfold guard; cbn [set_p_state set_p_key p_key]; destruct Sg as (x & g & ->); exact M2|].
      cbn [step]. unfold step_header_key. cbn [app]. rewrite E1, E2. pose proof (cut_later _ _ d2 E) as E3. cbn [app] in E3. rewrite E3.
      destruct d2 as [|c2 d2].
      * cbn [cut]. rewrite app_nil_r, Eb. split; [eexists eHeaderKey, (b_done (p_start p)); destruct p as [s [? ? ?] k v hk hn cl r]; reflexivity|reflexivity].
      * destruct (midname_first _ _ M2) as [F1 F2]. rewrite F1, F2. cbn [set_p_state set_p_key p_key].
        destruct (cut (c2 :: d2) x3a) as [[k rest]|].
        -- pose proof (append_more _ _ _ k Eb) as Y. cbn [app] in Y. cbn [app]. rewrite Y. destruct (buf_append b k) as [b2|]; [|split; reflexivity]. cbn [buf_finish]. cbn zeta. cbn [set_p_hnum set_p_hkey set_p_key p_hnum].
           destruct (_ >? _); [split; reflexivity|]. destruct (key_is _ _); (split; [reflexivity|]; split; [eexists eHeaderKey, (b_done (p_start p)); destruct p as [s [? ? ?] k0 v hk hn cl r]; reflexivity|reflexivity]).
        -- pose proof (append_more _ _ _ (c2 :: d2) Eb) as Y. cbn [app] in Y. rewrite Y. destruct (buf_append b (c2 :: d2)) as [b2|]; [|split; reflexivity].
           split; [eexists eHeaderKey, (b_done (p_start p)); destruct p as [s [? ? ?] k0 v hk hn cl r]; reflexivity|reflexivity].
  - unfold step_content_length in H. destruct G as (Gk & Gm). destruct (clen_loop (p_clen p) d) as [n [rest|]] eqn:E.
    { cbn zeta in H. destruct rest as [|c rest]; [discriminate|]. destruct (Byte.eqb c CR); [discriminate|]. destruct (Byte.eqb c LF); discriminate. }
    injection H as <-. cbn [set_p_state p_state]. split; [split; [split; [exact Gk|]|exact I]; apply (midline_app d d2 Gm); exact (clen_no_lf _ _ _ E)|].
    cbn [step]. unfold step_content_length. rewrite (clen_later _ _ _ d2 E). cbn [set_p_state set_p_clen p_clen].
    destruct (clen_loop n d2) as [n2 [rest|]]; [|split; [eexists eContentLength, (b_done (p_start p)); destruct p as [s [? ? ?] k v hk hn cl r]; reflexivity|reflexivity]].
    cbn zeta. destruct rest as [|c rest]; [exact I|]. destruct (Byte.eqb c CR); [|destruct (Byte.eqb c LF)].
    + split; [reflexivity|]. split; [eexists eContentLength, (b_done (p_start p)); destruct p as [s [? ? ?] k v hk hn cl r]; reflexivity|reflexivity].
    + split; [reflexivity|]. split; [eexists eContentLength, (b_done (p_start p)); destruct p as [s [? ? ?] k v hk hn cl r]; reflexivity|reflexivity].
    + split; reflexivity.
  - unfold step_content_length_cr in H. destruct d as [|c d]; [|destruct (Byte.eqb c LF); discriminate]. injection H as <-. cbn [set_p_state p_state]. split; [split; [exact G|exact I]|].
    apply step_near; [eexists eContentLengthCR, (b_done (p_start p)); destruct p as [s [? ? ?] k v hk hn cl r]; reflexivity|discriminate|exact I|exact I].
  - unfold step_header_value in H. destruct G as (Gk & Gm). destruct (cut d LF) as [[m rest]|] eqn:E.
    { destruct (buf_append (p_val p) m) as [b|]; [|discriminate]. destruct (_ >? _); [discriminate|]. cbn [buf_finish] in H. cbn zeta in H. destruct (last_byte _); discriminate. }
    destruct (buf_append (p_val p) d) as [b|] eqn:Eb; [|discriminate]. destruct (_ >? _); [discriminate|]. injection H as <-. cbn [set_p_state p_state].
    split; [split; [split; [exact Gk|]|exact I]; apply (midline_app d d2 Gm); apply cut_none; exact E|].
    cbn [step]. unfold step_header_value. rewrite (cut_later _ _ d2 E). cbn [set_p_state set_p_val p_val].
    destruct (cut d2 LF) as [[v rest]|].
    + rewrite (append_more _ _ _ v Eb). destruct (buf_append b v) as [b2|]; [|split; reflexivity]. destruct (_ >? _); [split; reflexivity|]. cbn [buf_finish]. cbn zeta.
      destruct (last_byte _); [|exact I]. split; [reflexivity|]. split; [eexists eHeaderValue, (b_done (p_start p)); destruct p as [s [? ? ?] k v0 hk hn cl r]; reflexivity|reflexivity].
    + rewrite (append_more _ _ _ d2 Eb). destruct (buf_append b d2) as [b2|]; [|split; reflexivity]. destruct (_ >? _); [split; reflexivity|].
      split; [eexists eHeaderValue, (b_done (p_start p)); destruct p as [s [? ? ?] k v0 hk hn cl r]; reflexivity|reflexivity].
  - unfold step_crlfcr in H. destruct d as [|c d]; [|destruct (Byte.eqb c LF); discriminate]. injection H as <-. cbn [set_p_state p_state]. split; [split; [exact I|exact I]|].
    apply step_near; [eexists eHeaderValueCRLFCR, (b_done (p_start p)); destruct p as [s [? ? ?] k v hk hn cl r]; reflexivity|discriminate|exact I|exact I].
Qed.

(* ---- whole reads ---- *)
Lemma inv_state : forall p q d, inv eMethod p d -> inv eMethod q d -> p_state p = p_state q.
Proof. intros p q d [(_ & E & _) _] [(_ & E' & _) _]. rewrite E, E'. reflexivity. Qed.
Lemma run_near : forall cfg f f' l p q d, near p q -> inv l p d -> inv l q d -> (List.length d < f)%nat -> (List.length d < f')%nat ->
  rsim (run cfg f l p d) (run cfg f' l q d).
Proof.
  induction f as [|f IH]; intros f' l p q d N Ip Iq Hf Hf'; [lia|]. destruct f' as [|f']; [lia|]. cbn [run].
  assert (J : jsim (step cfg l p d) (step cfg l q d)).
  { apply step_near; [exact N| |apply Ip|apply Iq]. intros ->. exact (inv_state p q d Ip Iq). }
  destruct (step cfg l p d) as [l1 p1 d1|r1] eqn:E1, (step cfg l q d) as [l2 p2 d2|r2] eqn:E2; try contradiction; [|exact J].
  destruct J as (-> & N' & ->). pose proof (step_shrinks _ _ _ _ _ _ _ E1). apply IH; [exact N'|exact (step_keeps _ _ _ _ _ _ _ Ip E1)|exact (step_keeps _ _ _ _ _ _ _ Iq E2)|lia|lia].
Qed.
Definition rafter (d2 : bytes) (r : pres) (w : pres) (next : parser -> pres) : Prop :=
  match r with
  | RPending p => inv (p_state p) p d2 /\ rsim w (next p)
  | RDone p e => w = RDone p (e ++ d2)
  | RErr p e => exists q, w = RErr q e /\ p_req p = p_req q
  | RPanic => w = RPanic
  | RStuck => False
  end.
Lemma run_split : forall cfg d2 f f' l p d, inv l p (d ++ d2) -> (List.length d < f)%nat -> (List.length (d ++ d2) < f')%nat ->
  rafter d2 (run cfg f l p d) (run cfg f' l p (d ++ d2)) (fun p' => parse cfg p' d2).
Proof.
  intros cfg d2. induction f as [|f IH]; intros f' l p d Ip Hf Hf'; [lia|]. destruct f' as [|f']; [lia|]. cbn [run].
  destruct (step cfg l p d) as [l1 p1 d1|r1] eqn:E1.
  - rewrite (step_goto _ _ _ _ d2 _ _ _ Ip E1). pose proof (step_shrinks _ _ _ _ _ _ _ E1). rewrite app_length in Hf'.
    apply IH; [|lia|rewrite app_length; lia]. exact (step_keeps _ _ _ _ _ _ _ Ip (step_goto _ _ _ _ d2 _ _ _ Ip E1)).
  - destruct r1 as [p1|p1 e1|p1 e1| |].
    + destruct (step_pend _ _ _ _ d2 _ Ip E1) as [I1 J]. split; [exact I1|]. unfold parse. cbn [run].
      destruct (step cfg l p (d ++ d2)) as [l2 p2 x2|r2] eqn:E2, (step cfg (p_state p1) p1 d2) as [l3 p3 x3|r3] eqn:E3; try contradiction; [|exact J].
      destruct J as (-> & N & ->). pose proof (step_shrinks _ _ _ _ _ _ _ E2). pose proof (step_shrinks _ _ _ _ _ _ _ E3).
      apply run_near; [exact N|exact (step_keeps _ _ _ _ _ _ _ Ip E2)|exact (step_keeps _ _ _ _ _ _ _ I1 E3)|lia|lia].
    + pose proof (step_ret _ _ _ _ d2 _ Ip E1) as M. cbn [rmore] in M. rewrite M. reflexivity.
    + pose proof (step_ret _ _ _ _ d2 _ Ip E1) as M. cbn [rmore] in M. destruct M as (q & -> & Hq). exists q. split; [reflexivity|exact Hq].
    + pose proof (step_ret _ _ _ _ d2 _ Ip E1) as M. cbn [rmore] in M. rewrite M. reflexivity.
    + exact (step_not_stuck _ _ _ _ E1).
Qed.
Lemma parse_split : forall cfg p d d2, inv (p_state p) p (d ++ d2) ->
  rafter d2 (parse cfg p d) (parse cfg p (d ++ d2)) (fun p' => parse cfg p' d2).
Proof. intros cfg p d d2 H. apply run_split; [exact H|lia|lia]. Qed.
Lemma same_refl : forall x, fst x <> RStuck -> SameOutcome x x.
Proof. intros [r l] H. unfold SameOutcome. cbn [fst snd] in *. destruct r; try (split; reflexivity); try reflexivity. apply H. reflexivity. Qed.
Lemma same_sym : forall x y, SameOutcome x y -> SameOutcome y x.
Proof. intros [r l] [r' l']. unfold SameOutcome. cbn [fst snd]. destruct r, r'; try tauto; try (intros [A B0]; split; congruence); congruence. Qed.
Lemma same_trans : forall x y z, SameOutcome x y -> SameOutcome y z -> SameOutcome x z.
Proof.
  intros [r l] [r' l'] [r'' l'']. unfold SameOutcome. cbn [fst snd]. destruct r, r'; try tauto; destruct r''; try tauto; try (intros [A B0] [C D]; split; congruence); congruence.
Qed.
Lemma near_same : forall p q, near p q -> p_req p = p_req q.
Proof. intros p q (s & d & ->). reflexivity. Qed.
Lemma feed_one : forall cfg p d, feed cfg p [d] = match parse cfg p d with RPending p' => (RPending p', []) | r => (r, []) end.
Proof. intros cfg p d. cbn [feed]. destruct (parse cfg p d); reflexivity. Qed.
Lemma feed_whole : forall cfg reads p d, inv (p_state p) p (concat (d :: reads)) -> SameOutcome (feed cfg p (d :: reads)) (feed cfg p [concat (d :: reads)]).
Proof.
  intros cfg. induction reads as [|d2 reads IH]; intros p d Hi.
  - cbn [concat]. rewrite app_nil_r. apply same_refl. apply feed_not_stuck.
  - change (concat (d :: d2 :: reads)) with (d ++ concat (d2 :: reads)) in *. set (t := concat (d2 :: reads)) in *.
    pose proof (parse_split cfg p d t Hi) as S. rewrite feed_one.
    change (feed cfg p (d :: d2 :: reads)) with (match parse cfg p d with RPending p' => feed cfg p' (d2 :: reads) | r => (r, d2 :: reads) end).
    destruct (parse cfg p d) as [p1|p1 e|p1 e| |]; cbn [rafter] in S.
    + destruct S as [I1 S]. apply (same_trans _ (feed cfg p1 [t])); [exact (IH p1 d2 I1)|]. rewrite feed_one.
      destruct (parse cfg p (d ++ t)), (parse cfg p1 t); cbn [rsim] in S; try contradiction; unfold SameOutcome; cbn [fst snd].
      * symmetry. apply near_same. apply S.
      * destruct S as [-> ->]. split; reflexivity.
      * destruct S as [-> ->]. split; reflexivity.
      * exact I.
    + rewrite S. split; [reflexivity|]. cbn [fst snd concat]. rewrite app_nil_r. reflexivity.
    + destruct S as (q & -> & Hq). split; [reflexivity|exact Hq].
    + rewrite S. exact I.
    + contradiction.
Qed.
Lemma ready_nil : forall cfg umax kmax vmax p, 0 <= umax -> Ready umax kmax vmax p -> parse cfg p [] = RPending p.
Proof.
  intros cfg umax kmax vmax p H R. destruct p as [s [bd bs bm] k v hk hn cl r]. unfold Ready in R. cbn [p_state p_start p_key p_val p_hnum p_clen] in R.
  decompose [and] R. subst. repeat match goal with E : Buffer _ _ _ = Buffer _ _ _ |- _ => injection E as -> -> -> end.
  unfold parse. cbn [run List.length p_state step]. unfold step_method. change (cut [] SP) with (@None (bytes * bytes)). cbn match.
  unfold buf_append. cbn [p_start b_done b_seg b_max]. change (len []) with 0. destruct (Z.gtb_spec (0 + 0 + 0) umax); [lia|]. reflexivity.
Qed.
Lemma feed_nils : forall cfg p, parse cfg p [] = RPending p -> forall reads, concat reads = [] -> feed cfg p reads = (RPending p, []).
Proof. intros cfg p H. induction reads as [|d reads IH]; intros E; [reflexivity|]. cbn [concat] in E. apply app_eq_nil in E. destruct E as [-> E]. cbn [feed]. rewrite H. exact (IH E). Qed.
Lemma ready_inv : forall umax kmax vmax p t, Ready umax kmax vmax p -> NamedHead t -> len (start_part t) <= umax -> inv (p_state p) p t.
Proof.
  intros umax kmax vmax p t R N L. destruct p as [s [bd bs bm] k v hk hn cl r]. unfold Ready in R. cbn [p_state p_start p_key p_val p_hnum p_clen] in R.
  decompose [and] R. subst. repeat match goal with E : Buffer _ _ _ = Buffer _ _ _ |- _ => injection E as -> -> -> end.
  split.
  - split; [reflexivity|]. split; [reflexivity|exact N].
  - unfold roomy, used. cbn [p_state p_start b_done b_seg b_max]. change (len []) with 0. lia.
Qed.
Lemma arrival : forall cfg umax kmax vmax p reads reads', Ready umax kmax vmax p -> concat reads = concat reads' -> NamedHead (concat reads) ->
  len (start_part (concat reads)) <= umax -> SameOutcome (feed cfg p reads) (feed cfg p reads').
Proof.
  intros cfg umax kmax vmax p reads reads' R E N L. assert (U : 0 <= umax) by (pose proof (len_nonneg (start_part (concat reads))); lia).
  pose proof (ready_nil cfg umax kmax vmax p U R) as P0.
  assert (W : forall rs, concat rs = concat reads -> SameOutcome (feed cfg p rs) (feed cfg p [concat reads])).
  { intros [|d rs] Er.
    - rewrite <- Er. rewrite (feed_nils cfg p P0 [concat []] eq_refl). apply same_refl. discriminate.
    - rewrite <- Er. apply feed_whole. apply (ready_inv umax kmax vmax); [exact R|rewrite Er; exact N|rewrite Er; exact L]. }
  apply (same_trans _ _ _ (W reads eq_refl)). apply same_sym. apply W. symmetry. exact E.
Qed.
