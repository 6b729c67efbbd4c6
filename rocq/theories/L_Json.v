From Verif Require Import M_Base M_Status M_Method M_Proto M_KeyValue M_Query M_Request M_Parser M_Client M_Body
  M_Response M_Serializer M_Suit M_Json S_KeyValue S_Chunk S_Head S_Parser S_Body S_Response S_Conn S_Json L_Base L_Conn2 L_Conn3 L_ConnProps.

Lemma type_check : forall ct, ((len ct >? 0)%Z && negb (beqb ct mime_json)) = false <-> (ct = [] \/ ct = B "application/json").
Proof.
  intros ct. split.
  - intros H. apply andb_false_iff in H as [H|H].
    + left. destruct ct; [reflexivity|]. unfold len in H. cbn [List.length] in H. rewrite Z.gtb_ltb in H. apply Z.ltb_ge in H. lia.
    + right. apply negb_false_iff in H. apply beqb_eq in H. exact H.
  - intros [-> | ->]; reflexivity.
Qed.

Section Json.
Variables (M E W : Type) (decode : M -> bytes -> M * option E).
Notation decoded m text := (fst (decode m text), option_map JDecode (snd (decode m text))).

Lemma json_accepts : forall more m (k : M -> option (jerr E) -> hprog W) r text o r' v',
  (r_content_type r = [] \/ r_content_type r = B "application/json") ->
  HSteps more (json decode m k) r (fresh_view text) o r' v' <->
  HSteps more (k (fst (decode m text)) (option_map JDecode (snd (decode m text)))) r (View [] true [] false (Some text)) o r' v'.
Proof.
  intros more m k r text o r' v' Hct. unfold json. apply type_check in Hct. split.
  - intros H. inversion H as [| | | |? ? ? ? ? ? H1| | |]; subst. rewrite Hct in H1.
    inversion H1 as [| |? ? ? ? x v1 ? ? ? HA HB| | | | |]; subst.
    inversion HA; subst. destruct (decode m text) as (m', e). exact HB.
  - intros H. constructor. rewrite Hct. econstructor; [constructor|]. cbn beta iota. destruct (decode m text) as (m', e). exact H.
Qed.
Lemma json_again : forall more m (k : M -> option (jerr E) -> hprog W) r st se text o r' v',
  (r_content_type r = [] \/ r_content_type r = B "application/json") ->
  HSteps more (json decode m k) r (View [] true st se (Some text)) o r' v' <->
  HSteps more (k (fst (decode m text)) (option_map JDecode (snd (decode m text)))) r (View [] true st se (Some text)) o r' v'.
Proof.
  intros more m k r st se text o r' v' Hct. unfold json. apply type_check in Hct. split.
  - intros H. inversion H as [| | | |? ? ? ? ? ? H1| | |]; subst. rewrite Hct in H1.
    inversion H1 as [| |? ? ? ? x v1 ? ? ? HA HB| | | | |]; subst.
    inversion HA; subst. destruct (decode m text) as (m', e). exact HB.
  - intros H. constructor. rewrite Hct. econstructor; [constructor|]. cbn beta iota. destruct (decode m text) as (m', e). exact H.
Qed.
Lemma json_refuses : forall more m (k : M -> option (jerr E) -> hprog W) r v o r' v',
  r_content_type r <> [] -> r_content_type r <> B "application/json" ->
  HSteps more (json decode m k) r v o r' v' <-> HSteps more (k m (Some (JMedia ErrUnsupportedMediaType))) r v o r' v'.
Proof.
  intros more m k r v o r' v' H1 H2. unfold json.
  assert (Hct : ((len (r_content_type r) >? 0)%Z && negb (beqb (r_content_type r) mime_json)) = true).
  { destruct ((len (r_content_type r) >? 0)%Z && negb (beqb (r_content_type r) mime_json)) eqn:X; [reflexivity|].
    apply type_check in X. destruct X; contradiction. }
  split.
  - intros H. inversion H as [| | | |? ? ? ? ? ? H3| | |]; subst. rewrite Hct in H3. exact H3.
  - intros H. constructor. rewrite Hct. exact H.
Qed.
Lemma shown_type : forall h r, Shows h r -> r_content_type r = content_type_of h.
Proof. intros h r (r0 & HM & HS & _). rewrite (sv_ctype _ _ HS), (mn_ctype _ _ _ HM). reflexivity. Qed.
Lemma json_verdict_ok : forall more m (k : M -> option (jerr E) -> hprog W) h r text o r' v', Shows h r ->
  HSteps more (json decode m k) r (fresh_view text) o r' v' ->
  exists v, HSteps more (k (fst (json_verdict decode m h text)) (snd (json_verdict decode m h text))) r v o r' v'.
Proof.
  intros more m k h r text o r' v' HS H. pose proof (shown_type h r HS) as Hct. unfold json_verdict. rewrite <- Hct.
  destruct (list_eq_dec Byte.byte_eq_dec (r_content_type r) []) as [Y|N1]; [eexists; refine (proj1 (json_accepts _ _ _ _ _ _ _ _ _) H); auto|].
  destruct (list_eq_dec Byte.byte_eq_dec (r_content_type r) (B "application/json")) as [Y|N2]; [eexists; refine (proj1 (json_accepts _ _ _ _ _ _ _ _ _) H); auto|].
  eexists. exact (proj1 (json_refuses _ _ _ _ _ _ _ _ N1 N2) H).
Qed.

(* a server that decodes every request and keeps what it gets *)
Variable answer : M -> option (jerr E) -> fields.
Definition json_server (m : M) (w : list (M * option (jerr E))) (r : request) : hprog (list (M * option (jerr E))) :=
  json decode m (fun m' e => HRet (Some (answer m' e)) (w ++ [(m', e)])).
End Json.

Lemma json_conversation : forall M E decode answer defs (m : M) reqs w past outs w2 closed,
  Conversation defs (json_server M E decode answer m) reqs w past outs w2 closed ->
  exists served left, reqs = served ++ left /\ (closed = None -> left = []) /\ (forall l, closed = Some l -> l = left) /\
    w2 = w ++ map (fun q => json_verdict decode m (q_head q) (q_text q)) served.
Proof.
  intros M E decode answer defs m reqs w past outs w2 closed H.
  assert (One : forall q w r resp w1 r', Shows (q_head q) r ->
     HRun (more_of (q_head q)) (json_server M E decode answer m w r) r (fresh_view (q_text q)) resp w1 r' ->
     w1 = w ++ [json_verdict decode m (q_head q) (q_text q)]).
  { intros q w0 r resp w1 r' HS (v' & HR). unfold json_server in HR.
    destruct (json_verdict_ok M E _ decode _ m _ (q_head q) r _ _ _ _ HS HR) as (v & HR2).
    inversion HR2; subst. destruct (json_verdict decode m (q_head q) (q_text q)). reflexivity. }
  induction H as [w past|q reqs w past r resp w1 r' out outs w2 closed HS HR _ _ HC IH|q reqs w past r resp w1 r' out HS HR _ _].
  - exists [], []. cbn. rewrite app_nil_r. repeat split; auto. intros l X. discriminate X.
  - destruct IH as (served & left & -> & Hn & Hl & ->). exists (q :: served), left. split; [reflexivity|]. split; [assumption|]. split; [assumption|].
    rewrite (One q w r resp w1 r' HS HR), <- app_assoc. reflexivity.
  - exists [q], reqs. split; [reflexivity|]. split; [discriminate|]. split; [intros l X; injection X as <-; reflexivity|].
    cbn [map]. exact (One q w r resp w1 r' HS HR).
Qed.

Lemma json_ordinary : forall M E decode answer (m : M) fbs w r, (forall m' e, Sendable fbs (answer m' e)) ->
  Ordinary fbs (json_server M E decode answer m w r).
Proof.
  intros M E decode answer m fbs w r Ha. apply Ta_look. intros r0.
  assert (G : forall m' e, Tame (CanBeSent fbs) false (HRet (Some (answer m' e)) (w ++ [(m', e)]))).
  { intros m' e. apply Ta_ret. intros f Hf. injection Hf as <-. apply Ha. }
  match goal with |- context [if ?b then _ else _] => destruct b end; [apply G|].
  apply Ta_body. intros o. destruct o as [[d|e| |]|d e|ps x|x]; try apply G. destruct (decode m d). apply G.
Qed.
Lemma json_served : forall CS cparse encoded fresh inside,
  DecoderOk CS cparse encoded fresh inside -> forall max, (max < two64)%Z ->
  forall cfg umax kmax vmax fbs defs, distinct_names defs ->
  forall M E decode answer (m : M) on_error reqs past (st : conn CS (list (M * option (jerr E)))) tail,
  (forall m' e, Sendable fbs (answer m' e)) ->
  Between umax kmax vmax fbs defs fresh past st ->
  Forall (GoodRequest encoded (cfg_limits cfg umax kmax vmax) max) reqs ->
  Unfinished (cfg_limits cfg umax kmax vmax) tail ->
  stream (k_client st) = concat (map wire reqs) ++ tail ->
  exists n outs closed served left st1,
    Conversation defs (json_server M E decode answer m) reqs (k_world st) past outs (k_world st1) closed /\
    reqs = served ++ left /\ (closed = None -> left = []) /\
    k_world st1 = k_world st ++ map (fun q => json_verdict decode m (q_head q) (q_text q)) served /\
    cl_out (k_client st1) = cl_out (k_client st) ++ outs /\
    forall fuel, (n <= fuel)%nat ->
      serve cparse max cfg (json_server M E decode answer m) on_error fuel st =
      close_with cparse max on_error (match closed with None => EndRead | Some _ => EndWrite end) st1.
Proof.
  intros CS cparse encoded fresh inside Hok max Hmax cfg umax kmax vmax fbs defs Hd M E decode answer m on_error reqs past st tail Ha HB HG HU Hs.
  destruct (whole_connection CS cparse encoded fresh inside Hok max Hmax cfg umax kmax vmax fbs defs Hd
     _ (json_server M E decode answer m) on_error reqs past st tail) as (n & outs & closed & st1 & HC & Ho & Hsv); auto.
  { intros q w r _ _. apply json_ordinary. exact Ha. }
  destruct (json_conversation _ _ _ _ _ _ _ _ _ _ _ _ HC) as (served & left & H1 & H2 & _ & H3).
  exists n, outs, closed, served, left, st1. auto 10.
Qed.
