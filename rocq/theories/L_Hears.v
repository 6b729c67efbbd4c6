(* Lemmas: a client reads the responses of a connection. *)
From Verif Require Import M_Base M_Status M_Method M_Proto M_KeyValue M_Query M_Request M_Parser M_Client M_Body
  M_Response M_Serializer M_Suit M_Path M_Radix M_Router S_KeyValue S_Chunk S_Head S_Parser S_Body S_Response S_Split S_Verdict S_Arrive S_Conn S_Upgrade S_Routes S_Router S_Serve S_Talk S_Hears
  L_Base L_Head L_Body L_Chunk L_Response L_Response2 L_Response3 L_Attach L_Conn L_Conn2 L_Conn3 L_Talk2 L_Talk3.

Lemma chunked_some : forall w d, Chunked w d -> w <> [].
Proof. intros w d H. destruct H as [h N _|h e w t N _ _ _]; destruct h; try congruence; discriminate. Qed.
Lemma chunked_one : forall w1 d1 r1 w2 d2 r2, Chunked w1 d1 -> Chunked w2 d2 -> w1 ++ r1 = w2 ++ r2 -> w1 = w2 /\ d1 = d2 /\ r1 = r2.
Proof.
  intros w1 d1 r1 w2 d2 r2 H1 H2 E.
  apply (encoded_one _ _ _ _ _ ref_decoder_ok (List.length (w1 ++ r1)) (KSize 0 false) false w1 d1 r1 w2 d2 r2 (le_n _)); auto.
  - apply (dk_start _ _ _ _ _ ref_decoder_ok _ false); [reflexivity|exact H1].
  - apply (dk_start _ _ _ _ _ ref_decoder_ok _ false); [reflexivity|exact H2].
  - apply (chunked_some _ _ H1).
  - apply (chunked_some _ _ H2).
Qed.

(* there is one way to read a message *)
Lemma length_not_chunked : forall l start ls rest c reason fs m r,
  cut_lines (S (List.length l)) l = Some (start :: ls, rest) -> read_start start = Some (B "HTTP/1.1", c, reason) -> read_fields ls = Some fs ->
  bodyless c = false -> all_values fs (B "transfer-encoding") = [B "chunked"] -> read_response false l = Some (m, r) -> False.
Proof.
  intros l start ls rest c reason fs m r H1 H2 H3 H4 H5 H. unfold read_response in H. rewrite H1, H2, H3, H4 in H. cbn [orb] in H.
  unfold body_length in H. rewrite H5 in H. discriminate H.
Qed.
Lemma gets_one : forall head l m rest, Gets head l m rest -> forall m' rest', Gets head l m' rest' -> m = m' /\ rest = rest'.
Proof.
  intros head l m rest H. induction H as [l m rest R C|l start ls c reason fs w text rest H1 H2 H3 H4 H5 H6 H7 H8|l m0 mid m rest R C H IH]; intros m' rest' H'.
  - destruct H' as [l m' rest' R' C'|l start ls c reason fs w text rest' H1 H2 H3 H4 H5 H6 H7 H8|l m0 mid m' rest' R' C' H'].
    + rewrite R in R'. injection R' as <- <-. auto.
    + exfalso. subst head. exact (length_not_chunked _ _ _ _ _ _ _ _ _ H1 H2 H3 H5 H6 R).
    + rewrite R in R'. injection R' as <- <-. lia.
  - destruct H' as [l m' rest' R' C'|l start' ls' c' reason' fs' w' text' rest' K1 K2 K3 K4 K5 K6 K7 K8|l m0 mid m' rest' R' C' H'].
    + exfalso. subst head. exact (length_not_chunked _ _ _ _ _ _ _ _ _ H1 H2 H3 H5 H6 R').
    + rewrite H1 in K1. injection K1 as <- <- E. rewrite H2 in K2. injection K2 as <- <-. rewrite H3 in K3. injection K3 as <-.
      destruct (chunked_one _ _ _ _ _ _ H8 K8 E) as (_ & -> & ->). auto.
    + exfalso. subst head. exact (length_not_chunked _ _ _ _ _ _ _ _ _ H1 H2 H3 H5 H6 R').
  - destruct H' as [l m' rest' R' C'|l start' ls' c' reason' fs' w' text' rest' K1 K2 K3 K4 K5 K6 K7 K8|l m0' mid' m' rest' R' C' H'].
    + rewrite R in R'. injection R' as <- <-. lia.
    + exfalso. subst head. exact (length_not_chunked _ _ _ _ _ _ _ _ _ K1 K2 K3 K5 K6 R).
    + rewrite R in R'. injection R' as <- <-. apply IH. exact H'.
Qed.
Lemma gets_all_one : forall heads l ms rest, GetsAll heads l ms rest -> forall ms' rest', GetsAll heads l ms' rest' -> ms = ms' /\ rest = rest'.
Proof.
  intros heads l ms rest H. induction H as [l|head heads l m mid ms rest G H IH]; intros ms' rest' H'; inversion H' as [|? ? ? m' mid' ms2 ? G' H2]; subst.
  - auto.
  - destruct (gets_one _ _ _ _ G _ _ G') as [<- <-]. destruct (IH _ _ H2) as [<- <-]. auto.
Qed.
Lemma gets_all_app : forall h1 h2 l m1 m2 mid rest, GetsAll h1 l m1 mid -> GetsAll h2 mid m2 rest -> GetsAll (h1 ++ h2) l (m1 ++ m2) rest.
Proof. intros h1 h2 l m1 m2 mid rest H. induction H; intros H2; [exact H2|]. cbn [app]. eapply Ga_next; [eassumption|auto]. Qed.

(* ---- attachments ---- *)
Lemma attachment_fields_clean : forall defs past f a, Renderable f -> Forall clean_field defs -> Forall clean_field (attachment_fields defs past f a).
Proof.
  intros defs past f a (H1 & H2 & H3 & H4) Hd. unfold attachment_fields. repeat (apply Forall_app; split).
  - exact H1.
  - unfold remaining. apply Forall_forall. intros e He. apply filter_In in He. rewrite Forall_forall in Hd. apply Hd. tauto.
  - constructor; [|constructor]. split; [apply known_name; [reflexivity|discriminate|reflexivity]|exact H2].
  - destruct (0 <? at_size a)%Z.
    + apply Forall_app. split.
      * destruct (f_te f) as [|x t]; [constructor|]. constructor; [|constructor]. split; [apply known_name; [reflexivity|discriminate|reflexivity]|exact H3].
      * constructor; [|constructor]. split; [apply known_name; [reflexivity|discriminate|reflexivity]|apply itoa_clean].
    + constructor; [|constructor]. split; [apply known_name; [reflexivity|discriminate|reflexivity]|apply cleanb_ok; reflexivity].
Qed.
Lemma framing_absent : forall defs past f k, Forall (fun e => ~ framing_name (fst e)) (f_headers f ++ defs) ->
  (same_key k (B "content-length") \/ same_key k (B "transfer-encoding")) ->
  all_values (map trimmed (f_headers f)) k = [] /\ all_values (map trimmed (remaining (past ++ names f) defs)) k = [].
Proof.
  intros defs past f k H Hk. apply Forall_app in H. destruct H as [Hh Hd].
  split; apply all_values_trimmed_absent; apply Forall_forall; intros e He S.
  - rewrite Forall_forall in Hh. apply (Hh e He). unfold framing_name, same_key in *. destruct Hk; [left|right]; congruence.
  - apply filter_In in He. rewrite Forall_forall in Hd. apply (Hd e (proj1 He)). unfold framing_name, same_key in *. destruct Hk; [left|right]; congruence.
Qed.
Lemma attachment_values : forall defs past f a, Forall (fun e => ~ framing_name (fst e)) (f_headers f ++ defs) -> f_te f = [] ->
  all_values (map trimmed (attachment_fields defs past f a)) (B "transfer-encoding") = (if (0 <? at_size a)%Z then [] else [B "chunked"]) /\
  all_values (map trimmed (attachment_fields defs past f a)) (B "content-length") = (if (0 <? at_size a)%Z then [trim (itoa (at_size a))] else []).
Proof.
  intros defs past f a H Ht. unfold attachment_fields. rewrite Ht. rewrite !map_app, !all_values_app.
  destruct (framing_absent defs past f (B "transfer-encoding") H) as [K1 K2]; [right; reflexivity|].
  destruct (framing_absent defs past f (B "content-length") H) as [K3 K4]; [left; reflexivity|].
  unfold entry in *. rewrite K1, K2, K3, K4. destruct (0 <? at_size a)%Z; split; reflexivity.
Qed.
Lemma sized_length : forall defs past f a body, Forall (fun e => ~ framing_name (fst e)) (f_headers f ++ defs) -> f_te f = [] ->
  (0 < at_size a)%Z -> at_size a = len body -> body_length (map trimmed (attachment_fields defs past f a)) = Some (N.of_nat (List.length body)).
Proof.
  intros defs past f a body H Ht Hz E. unfold body_length. destruct (attachment_values defs past f a H Ht) as [-> ->].
  replace (0 <? at_size a)%Z with true by (symmetry; apply Z.ltb_lt; exact Hz). rewrite E. unfold len. rewrite itoa_nat, trim_itoa. apply itoa_N_dec.
Qed.
Lemma text_split : forall v c reason fs body, response_text v c reason fs [] ++ body = response_text v c reason fs body.
Proof. intros. unfold response_text. rewrite <- !app_assoc. reflexivity. Qed.

(* ---- one response ---- *)
Lemma sent_read : forall defs past p head r f out, Forall clean_field defs -> Forall (fun e => ~ framing_name (fst e)) defs ->
  method_eqb (r_method r) HEAD = head -> Legible defs p f -> Sent defs past p r f out ->
  exists m, Carries defs past p head f m /\ forall rest, Gets head (concat out ++ rest) m rest.
Proof.
  intros defs past p head r f out Hd Hfd Hm L S. destruct L as [L1 L2 L3 L4 L5 L6 L7].
  assert (Hf : Forall (fun e => ~ framing_name (fst e)) (f_headers f ++ defs)) by (apply Forall_app; split; assumption).
  assert (HM : forall m, method_eqb m HEAD = true <-> m = HEAD) by (intros m; destruct m; cbn; split; congruence).
  destruct S as [A|a A M|a pieces more A Z E M|a pieces last more ws A Z E M C].
  - eexists. split; [apply Ca_plain; exact A|]. intros rest. apply Gt_length; [|cbn [m_code]; lia].
    cbn [concat]. rewrite app_nil_r, Hm. apply read_text; [lia|apply reason_clean|apply sent_fields_clean; assumption| |].
    + intros Hx. destruct head; [reflexivity|]. apply L5. exact Hx.
    + intros Hx. apply orb_false_iff in Hx. destruct Hx as [-> Hx]. apply sent_body_length; assumption.
  - assert (head = true) by (rewrite <- Hm; apply HM; exact M). subst head.
    eexists. split; [apply (Ca_head _ _ _ _ _ a); assumption|]. intros rest. apply Gt_length; [|cbn [m_code]; lia].
    cbn [concat]. rewrite app_nil_r. apply read_text; [lia|apply reason_clean|apply attachment_fields_clean; assumption|reflexivity|].
    intros Hx. rewrite H in Hx. discriminate Hx.
  - assert (Hh : head = false) by (rewrite <- Hm; destruct (method_eqb (r_method r) HEAD) eqn:X; [apply HM in X; contradiction|reflexivity]).
    eexists. split; [apply (Ca_file _ _ _ _ _ a pieces [] more); assumption|]. intros rest. rewrite app_nil_r. apply Gt_length; [|cbn [m_code]; lia].
    cbn [concat]. rewrite text_split. apply read_text; [lia|apply reason_clean|apply attachment_fields_clean; assumption| |].
    + intros Hx. rewrite Hh in Hx. cbn [orb] in Hx. destruct (L5 Hx) as [_ X]. congruence.
    + intros Hx. apply sized_length; try assumption. rewrite (L6 _ _ _ _ A Z E), app_nil_r. reflexivity.
  - assert (Hh : head = false) by (rewrite <- Hm; destruct (method_eqb (r_method r) HEAD) eqn:X; [apply HM in X; contradiction|reflexivity]).
    assert (Hp : p = HTTP11) by (apply (L7 a); assumption). subst p.
    assert (Hb : bodyless (f_code f) = false) by (destruct (bodyless (f_code f)) eqn:X; [destruct (L5 eq_refl); congruence|reflexivity]).
    eexists. split; [apply (Ca_file _ _ _ _ _ a pieces last more); assumption|]. intros rest.
    cbn [concat]. rewrite <- app_assoc. destruct (attachment_values defs past f a Hf L4) as [V1 V2].
    replace (0 <? at_size a)%Z with false in V1, V2 by (symmetry; apply Z.ltb_ge; exact Z).
    change (version_of HTTP11) with (B "HTTP/1.1"). eapply Gt_chunked; [| | |exact Hh|exact Hb|exact V1|exact V2|exact C].
    + apply (cut_lines_text HTTP11 (f_code f) (sent_reason f) (attachment_fields defs past f a) [] (concat ws ++ rest));
        [apply reason_clean|apply attachment_fields_clean; assumption].
    + apply read_start_text; [|lia]. apply (version_clean HTTP11).
    + apply read_fields_bare. eapply Forall_impl; [|apply attachment_fields_clean; eassumption]. intros e He. apply He.
Qed.

Lemma shows_method : forall h r, Shows h r -> r_method r = h_method h.
Proof. intros h r (r0 & M & V & _). rewrite (sv_method _ _ V). apply (mn_method _ _ _ M). Qed.

(* ---- a conversation ---- *)
Lemma heard : forall W defs (on_request : W -> request -> hprog W), Forall clean_field defs -> Forall (fun e => ~ framing_name (fst e)) defs ->
  forall reqs w past outs w' closed, Conversation defs on_request reqs w past outs w' closed ->
  (forall q w r resp w1 r', In q reqs -> Shows (q_head q) r ->
    HRun (more_of (q_head q)) (on_request w r) r (fresh_view (q_text q)) resp w1 r' ->
    Legible defs (h_proto (q_head q)) (not_nil resp) /\ r_method r' = r_method r) ->
  exists ms, Correspondence defs on_request reqs w past ms w' closed /\ forall rest,
    GetsAll (map asks_head (firstn (List.length ms) reqs)) (concat outs ++ rest) ms rest.
Proof.
  intros W defs on_request Hd Hf reqs w past outs w' closed H.
  induction H as [w past|q reqs w past r resp w1 r' out outs w2 closed Hs Hr Ht Ho H IH|q reqs w past r resp w1 r' out Hs Hr Ht Ho]; intros HL.
  - exists []. split; [apply Co_end|]. intros rest. apply Ga_end.
  - destruct (HL q w r resp w1 r' (or_introl eq_refl) Hs Hr) as [L M].
    destruct (IH (fun q' w0 r0 resp0 w0' r0' Hq => HL q' w0 r0 resp0 w0' r0' (or_intror Hq))) as (ms & D & G).
    assert (Hm : method_eqb (r_method r') HEAD = asks_head q) by (unfold asks_head; rewrite M, (shows_method _ _ Hs); reflexivity).
    destruct (sent_read _ _ _ _ _ _ _ Hd Hf Hm L Ht) as (m & C & G1).
    exists (m :: ms). split; [eapply Co_open; eassumption|]. intros rest. cbn [List.length firstn map]. rewrite concat_app, <- app_assoc. eapply Ga_next; [apply G1|apply G].
  - destruct (HL q w r resp w1 r' (or_introl eq_refl) Hs Hr) as [L M].
    assert (Hm : method_eqb (r_method r') HEAD = asks_head q) by (unfold asks_head; rewrite M, (shows_method _ _ Hs); reflexivity).
    destruct (sent_read _ _ _ _ _ _ _ Hd Hf Hm L Ht) as (m & C & G1).
    exists [m]. split; [eapply Co_close; eassumption|]. intros rest. cbn [List.length firstn map]. eapply Ga_next; [apply G1|apply Ga_end].
Qed.

(* ---- any bytes ---- *)
Lemma heard_method : forall lim h r, Heard lim h r -> r_method r = h_method h.
Proof. intros lim h r (r0 & (_ & hs & T) & V & _). rewrite (sv_method _ _ V). exact (ta_method _ _ _ _ T). Qed.
Lemma version_text : forall p, clean (version_of p).
Proof. intros p. apply version_clean. Qed.
Lemma announcement_clean : forall ps, Forall clean_field (announcement ps).
Proof.
  intros ps. unfold announcement. induction ps as [|p ps IH]; [constructor|]. cbn [map concat app].
  constructor; [split; [apply known_name; [reflexivity|discriminate|reflexivity]|apply cleanb_ok; reflexivity]|].
  constructor; [split; [apply known_name; [reflexivity|discriminate|reflexivity]|apply version_text]|]. exact IH.
Qed.
Lemma announced_read : forall defs past ps p head rest, Forall clean_field defs ->
  exists m0, read_response head (announced_text defs past ps p ++ rest) = Some (m0, rest) /\ m_code m0 = 101%N.
Proof.
  intros defs past ps p head rest Hd. unfold announced_text. change (B "101") with (itoa_N 101). eexists. split.
  - apply read_text; [lia|apply cleanb_ok; reflexivity| |reflexivity|].
    + repeat (apply Forall_app; split); [apply announcement_clean| |].
      * unfold remaining. apply Forall_forall. intros e He. apply filter_In in He. rewrite Forall_forall in Hd. apply Hd. tauto.
      * constructor; [|constructor]. split; [apply known_name; [reflexivity|discriminate|reflexivity]|apply cleanb_ok; reflexivity].
    + intros H. destruct head; discriminate H.
  - reflexivity.
Qed.
Lemma replies_read : forall lim defs past ups h r r' f out past' ups', Forall clean_field defs -> Forall (fun e => ~ framing_name (fst e)) defs ->
  Heard lim h r -> r_method r' = r_method r -> Legible defs (answer_version r) f -> Replies defs past ups (read_as h) r' f out past' ups' ->
  exists m, Says defs past ups (read_as h) f m past' ups' /\ forall rest, Gets (method_eqb (h_method h) HEAD) (concat out ++ rest) m rest.
Proof.
  intros lim defs past ups h r r' f out past' ups' Hd Hf Hh Hm L H.
  destruct (heard_enc _ _ _ Hh) as (Ep & Eu & _). pose proof (heard_method _ _ _ Hh) as Em.
  assert (Hmm : method_eqb (r_method r') HEAD = method_eqb (h_method h) HEAD) by congruence.
  unfold answer_version in L. rewrite Ep, Eu in L.
  destruct H as [out Sw Se|p first rest0 Sw ups' past' Se].
  - assert (Hp : Legible defs (h_proto h) f) by (unfold switch_to in Sw; destruct (wished (read_as h)); try discriminate Sw; exact L).
    destruct (sent_read _ _ _ _ _ _ _ Hd Hf Hmm Hp Se) as (m & C & G). exists m. split; [apply Sy_same; assumption|exact G].
  - assert (Hp : Legible defs p f) by (unfold switch_to in Sw; destruct (wished (read_as h)); try discriminate Sw; injection Sw as <-; exact L).
    destruct (sent_read _ _ _ _ _ _ _ Hd Hf Hmm Hp Se) as (m & C & G). exists m. split; [apply Sy_switch with p; assumption|].
    intros rest. cbn [concat]. rewrite <- !app_assoc. destruct (announced_read defs past ups' (h_proto (read_as h)) (method_eqb (h_method h) HEAD) (first ++ concat rest0 ++ rest) Hd) as (m0 & R & E).
    eapply Gt_interim; [exact R|rewrite E; reflexivity|]. specialize (G rest). cbn [concat] in G. rewrite <- app_assoc in G. exact G.
Qed.
Lemma talk_read : forall encoded max lim defs W (A : W -> request -> bytes -> option fields -> W -> request -> Prop),
  Forall clean_field defs -> Forall (fun e => ~ framing_name (fst e)) defs ->
  (forall w r text resp w1 r', A w r text resp w1 r' -> Legible defs (answer_version r) (not_nil resp) /\ r_method r' = r_method r) ->
  forall reads w past ups outs w' left, Talk encoded max lim defs A reads w past ups outs w' left ->
  exists heads ms, TalkHeard encoded max lim defs A reads w past ups heads ms w' left /\ forall rest, GetsAll heads (concat outs ++ rest) ms rest.
Proof.
  intros encoded max lim defs W A Hd Hf HA reads w past ups outs w' left H.
  assert (T : forall reads w past ups out w1 past' ups' rest' open, Turn encoded max lim defs A reads w past ups out w1 past' ups' rest' open ->
    exists head m, TurnHeard encoded max lim defs A reads w past ups head m w1 past' ups' rest' open /\ forall rest, Gets head (concat out ++ rest) m rest).
  { clear - Hd Hf HA. intros reads w past ups out w1 past' ups' rest' open H. destruct H as [h rest r text rest' resp w1 r' out past' ups' open H1 H2 H3 H4 H5 H6].
    destruct (HA _ _ _ _ _ _ H4) as [L M]. destruct (replies_read _ _ _ _ _ _ _ _ _ _ _ Hd Hf H2 M L H5) as (m & S & G).
    exists (method_eqb (h_method h) HEAD), m. split; [eapply Th; eassumption|exact G]. }
  induction H as [reads w past ups|reads w past ups out w1 past' ups' rest' reads' outs w2 left Tu E H IH|reads w past ups out w1 past' ups' rest' Tu].
  - exists [], []. split; [apply Hd_stop|]. intros rest. apply Ga_end.
  - destruct (T _ _ _ _ _ _ _ _ _ _ Tu) as (head & m & T1 & G1). destruct IH as (heads & ms & T2 & G2).
    exists (head :: heads), (m :: ms). split; [eapply Hd_open; eassumption|]. intros rest. rewrite concat_app, <- app_assoc. eapply Ga_next; [apply G1|apply G2].
  - destruct (T _ _ _ _ _ _ _ _ _ _ Tu) as (head & m & T1 & G1). exists [head], [m]. split; [eapply Hd_close; eassumption|].
    intros rest. eapply Ga_next; [apply G1|apply Ga_end].
Qed.
