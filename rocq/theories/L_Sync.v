(* Lemmas: where the next request is looked for. *)
From Verif Require Import M_Base M_Status M_Method M_Proto M_KeyValue M_Query M_Request M_Parser M_Client M_Body
  M_Response M_Serializer M_Suit S_KeyValue S_Chunk S_Head S_Parser S_Body S_Response S_Conn S_Sync
  L_Base L_Head L_Body L_Body2 L_Body3 L_BodyProps L_Chunk L_Conn L_Conn2 L_Talk3.

(* ---- the reference decoder ---- *)
Lemma kparse_sound : forall data s acc s' chunk extra e, kvalid s -> kparse s data acc = (s', (chunk, extra, e)) ->
  match e with
  | None => extra = [] /\ kvalid s' /\ exists out, chunk = acc ++ out /\ forall w d, kaccepts s' w d -> kaccepts s (data ++ w) (out ++ d)
  | Some CEof => exists used out, data = used ++ extra /\ chunk = acc ++ out /\ kaccepts s used out /\ kfresh s'
  | Some CErr => True
  end.
Proof.
  induction data as [|c data IH]; intros s acc s' chunk extra e V H; cbn [kparse] in H.
  - injection H as <- <- <- <-. split; [reflexivity|]. split; [exact V|]. exists []. rewrite app_nil_r. split; [reflexivity|]. auto.
  - destruct (kstep s c) as [s1 out| |] eqn:Ek.
    + assert (V1 : kvalid s1).
      { destruct s; cbn [kstep] in Ek.
        - destruct (Byte.eqb c CR); [destruct seen; [injection Ek as <- <-; exact I|discriminate]|destruct (hex_value c); [injection Ek as <- <-; exact I|discriminate]].
        - destruct (Byte.eqb c LF); [|discriminate]. injection Ek as <- <-. destruct (n =? 0)%N eqn:E0; [exact I|apply N.eqb_neq in E0; exact E0].
        - injection Ek as <- <-. destruct (n =? 1)%N eqn:E0; [exact I|]. apply N.eqb_neq in E0. cbn [kvalid] in *. lia.
        - destruct (Byte.eqb c CR); [injection Ek as <- <-; exact I|discriminate].
        - destruct (Byte.eqb c LF); [injection Ek as <- <-; exact I|discriminate].
        - destruct (Byte.eqb c CR); [injection Ek as <- <-; exact I|discriminate].
        - destruct (Byte.eqb c LF); discriminate. }
      specialize (IH s1 _ _ _ _ _ V1 H). destruct e as [[|]|]; [| exact I |].
      * destruct IH as (used & o & -> & -> & A & F). exists (c :: used), (out ++ o). split; [reflexivity|]. split; [apply app_assoc_reverse|]. split; [|exact F].
        cbn [kaccepts]. rewrite Ek. exists o. auto.
      * destruct IH as (-> & V' & o & -> & A). split; [reflexivity|]. split; [exact V'|]. exists (out ++ o). split; [apply app_assoc_reverse|]. intros w d Ha.
        cbn [app kaccepts]. rewrite Ek. exists (o ++ d). split; [apply app_assoc_reverse|apply A; exact Ha].
    + injection H as <- <- <- <-. exists [c], []. split; [reflexivity|]. split; [symmetry; apply app_nil_r|]. split; [cbn [kaccepts]; rewrite Ek; auto|reflexivity].
    + injection H as <- <- <- <-. exact I.
Qed.
Definition kbegun (s : kstate) (tr : bool) (u d : bytes) : Prop :=
  kvalid s /\ forall w d', kaccepts s w d' -> kaccepts (KSize 0 false) (u ++ w) (d ++ d').
Theorem ref_decoder_sound : DecoderSound kstate ref_parse chunked_text kfresh kbegun.
Proof.
  constructor.
  - intros s tr ->. split; [exact I|]. auto.
  - intros s tr u d data s' chunk extra [V A] H. unfold ref_parse in H. apply kparse_sound in H; [|exact V]. destruct H as (-> & V' & out & -> & K).
    exists data. rewrite app_nil_r. split; [reflexivity|]. split; [exact V'|]. intros w d' Ha. rewrite <- !app_assoc. apply A. cbn [app]. apply K. exact Ha.
  - intros s tr u d data s' chunk extra [V A] H. unfold ref_parse in H. apply kparse_sound in H; [|exact V]. destruct H as (used & out & -> & -> & K & F).
    exists used. split; [reflexivity|]. split; [|exact F]. apply kmeans_chunked, accepts_means; [exact I|]. cbn [app]. apply A. exact K.
Qed.

(* ---- the input ---- *)
Lemma read_coming : forall c d e c1, client_read c = ((d, e), c1) -> exists before, cl_net c = before ++ cl_net c1 /\
  match e with
  | None => coming c = d ++ coming c1 /\ cl_pending c1 = [] /\ ~ hung_up before
  | Some NEof => hung_up before
  | Some NOther => coming c1 = coming c /\ ~ hung_up before
  end.
Proof.
  intros c d e c1 H. unfold client_read in H. destruct (cl_pending c) as [|x p] eqn:Ep.
  - destruct (cl_net c) as [|[d0 e0] net] eqn:En.
    + injection H as <- <- <-. exists []. rewrite En. split; [reflexivity|]. split; [reflexivity|]. intros (z & []).
    + injection H as <- <- <-. exists [(d0, e0)]. split; [reflexivity|]. unfold coming. rewrite Ep, En. cbn [cl_pending cl_net app arriving]. destruct e0 as [[|]|].
      * exists d0. left. reflexivity.
      * split; [reflexivity|]. intros (z & [X|[]]). discriminate X.
      * split; [reflexivity|]. split; [reflexivity|]. intros (z & [X|[]]). discriminate X.
  - injection H as <- <- <-. exists []. split; [reflexivity|]. unfold coming. rewrite Ep. cbn [cl_pending cl_net app]. split; [reflexivity|]. split; [reflexivity|]. intros (z & []).
Qed.

Section Sync.
Variable CS : Type.
Variable cparse : CS -> bytes -> bool -> CS * (bytes * bytes * option cerr).
Variable encoded : bool -> bytes -> bytes -> Prop.
Variable fresh : CS -> Prop.
Variable begun : CS -> bool -> bytes -> bytes -> Prop.
Hypothesis sound : DecoderSound CS cparse encoded fresh begun.
Variable max : Z.
Hypothesis max_ok : (0 <= max < two64)%Z.
(* the request, and the bytes behind its head *)
Variable q : request.
Variable all : bytes.
Variable cs0 : CS.
Hypothesis fresh0 : fresh cs0.

(* u of the bytes has been used *)
Definition Sync (b : body CS) (c : client) : Prop :=
  bd_chunked b = enc_chunked (r_encoding q) /\
  if bd_eof b then fresh (bd_cs b) /\ exists text, OneBody encoded max q all text (coming c)
  else if enc_chunked (r_encoding q)
  then bd_trailer b = enc_trailer (r_encoding q) /\ exists u d, all = u ++ coming c /\ begun (bd_cs b) (bd_trailer b) u d /\ bd_received b = len d
  else fresh (bd_cs b) /\
    ((max < bd_left b)%Z \/ exists u, all = u ++ coming c /\ (0 <= bd_left b)%Z /\ ((r_content_length q mod two64) = len u + bd_left b)%Z /\ (u = [] \/ len u + bd_left b <= max)%Z).
(* what happens between two moments: input is taken; the client hung up, a refusal was reported, or all is well *)
Definition Went (bad : bool) (c : client) (b' : body CS) (c' : client) : Prop :=
  exists before, cl_net c = before ++ cl_net c' /\ (hung_up before \/ (bad = true /\ enc_chunked (r_encoding q) = true) \/ Sync b' c').
Lemma went_refl : forall b c, Sync b c -> Went false c b c.
Proof. intros b c H. exists []. auto. Qed.
Lemma went_trans : forall x y b1 c b2 c1 c2, Went x c b1 c1 -> (Sync b1 c1 -> Went y c1 b2 c2) -> (exists before, cl_net c1 = before ++ cl_net c2) -> Went (x || y) c b2 c2.
Proof.
  intros x y b1 c b2 c1 c2 (p1 & E1 & H1) K (p2 & E2). exists (p1 ++ p2). split; [rewrite E1, E2; apply app_assoc|].
  destruct H1 as [(d & H1)|[[-> H1]|H1]]; [left; exists d; apply in_or_app; left; exact H1|right; left; auto|].
  destruct (K H1) as (p3 & E3 & H2). assert (p3 = p2) by (rewrite E2 in E3; apply app_inv_tail in E3; congruence). subst p3.
  destruct H2 as [(d & H2)|[[-> H2]|H2]]; [left; exists d; apply in_or_app; right; exact H2|right; left; destruct x; auto|right; right; exact H2].
Qed.

Lemma retrieve_input : forall (b : body CS) c x b' c', retrieve cparse max b c = (x, b', c') -> exists before, cl_net c = before ++ cl_net c'.
Proof.
  intros b c x b' c' H. unfold retrieve in H. destruct (bd_eof b); [injection H as <- <- <-; exists []; reflexivity|].
  destruct (bd_chunked b).
  - destruct (chunked_read cparse max b c) as [[y b1] c1] eqn:E. injection H as <- <- <-. unfold chunked_read in E.
    destruct (client_read c) as [[d e] c2] eqn:R. destruct (read_coming _ _ _ _ R) as (p & Ep & _).
    destruct e; [injection E as <- <- <-; exists p; exact Ep|]. destruct (cparse _ _ _) as [cs' [[chunk extra] ce]].
    destruct ce as [[|]|]; [destruct (_ || _)| |destruct (_ || _)]; injection E as <- <- <-; exists p; exact Ep.
  - destruct (plain_read max b c) as [[y b1] c1] eqn:E. injection H as <- <- <-. unfold plain_read in E.
    destruct (bd_left b =? 0)%Z; [injection E as <- <- <-; exists []; reflexivity|].
    destruct (client_read c) as [[d e] c2] eqn:R. destruct (read_coming _ _ _ _ R) as (p & Ep & _).
    destruct e; [injection E as <- <- <-; exists p; exact Ep|]. destruct (_ >? _)%Z; [injection E as <- <- <-; exists p; exact Ep|].
    destruct (_ >=? _)%Z; injection E as <- <- <-; exists p; exact Ep.
Qed.
Lemma retrieve_sync : forall (b : body CS) c d e b' c', retrieve cparse max b c = ((d, e), b', c') -> Sync b c -> Went (refusal e) c b' c'.
Proof.
  intros b c d e b' c' H [Hc HS]. unfold retrieve in H. destruct (bd_eof b) eqn:Ee.
  { injection H as <- <- <- <-. exists []. split; [reflexivity|]. right; right. split; [exact Hc|]. rewrite Ee. exact HS. }
  rewrite Hc in H. destruct (enc_chunked (r_encoding q)) eqn:Eq.
  - destruct HS as (Ht & u & t & Ea & Hb & Hr). destruct (chunked_read cparse max b c) as [[y b1] c1] eqn:E. injection H as -> <- <-. unfold chunked_read in E.
    destruct (client_read c) as [[data ne] c2] eqn:R. destruct (read_coming _ _ _ _ R) as (p & Ep & HR).
    destruct ne as [[|]|].
    { injection E as <- <- <- <-. exists p. split; [exact Ep|]. left. exact HR. }
    { injection E as <- <- <- <-. exists p. split; [exact Ep|]. right; right. cbn [berr_eof snd]. split; [congruence|]. rewrite Ee, Eq. split; [exact Ht|]. exists u, t.
      destruct HR as [-> _]. auto. }
    destruct HR as (HR & Hp & _). destruct (cparse (bd_cs b) data (bd_trailer b)) as [cs' [[chunk extra] ce]] eqn:Ec. destruct ce as [[|]|].
    + destruct ((two64 - 1 - bd_received b <? len chunk)%Z || (bd_received b + len chunk >? max)%Z) eqn:Eo; injection E as <- <- <- <-; exists p; (split; [exact Ep|]).
      { right; left. rewrite Eq. auto. }
      right; right. apply Bool.orb_false_elim in Eo. destruct Eo as [_ Eo]. rewrite Z.gtb_ltb in Eo. apply Z.ltb_ge in Eo.
      destruct (ds_end _ _ _ _ _ sound _ _ _ _ _ _ _ _ Hb Ec) as (used & -> & En & Fr). split; [cbn; congruence|]. cbn [berr_eof snd set_eof set_received set_cs bd_eof bd_cs].
      split; [exact Fr|]. exists (t ++ chunk). split; [rewrite len_app; lia|]. rewrite Eq. exists (u ++ used).
      rewrite <- Ht. split; [|exact En]. rewrite Ea, HR. unfold coming at 2. cbn [client_unread cl_pending cl_net]. unfold coming. rewrite Hp. cbn [app]. rewrite <- !app_assoc. reflexivity.
    + injection E as <- <- <- <-. exists p. split; [exact Ep|]. right; left. rewrite Eq. auto.
    + destruct ((two64 - 1 - bd_received b <? len chunk)%Z || (bd_received b + len chunk >? max)%Z) eqn:Eo; injection E as <- <- <- <-; exists p; (split; [exact Ep|]).
      { right; left. rewrite Eq. auto. }
      right; right. destruct (ds_more _ _ _ _ _ sound _ _ _ _ _ _ _ _ Hb Ec) as (used & -> & Hb'). split; [cbn; congruence|]. cbn [berr_eof snd set_received set_cs bd_eof bd_cs bd_trailer bd_received].
      rewrite Ee, Eq. split; [exact Ht|]. exists (u ++ used), (t ++ chunk). split; [|split; [exact Hb'|rewrite len_app; lia]].
      rewrite Ea, HR. unfold coming at 2. cbn [client_unread cl_pending cl_net]. unfold coming. rewrite Hp. cbn [app]. rewrite <- !app_assoc. reflexivity.
  - destruct HS as (Hf & HS). destruct (plain_read max b c) as [[y b1] c1] eqn:E. injection H as -> <- <-. unfold plain_read in E.
    destruct (bd_left b =? 0)%Z eqn:E0.
    { apply Z.eqb_eq in E0. injection E as <- <- <- <-. exists []. split; [reflexivity|].
      right; right. split; [cbn; congruence|]. cbn [berr_eof snd set_eof bd_eof bd_cs]. split; [exact Hf|].
      destruct HS as [HS|(u & Ea & Hn & Hl & Hm)].
      - exfalso. lia.
      - exists u. rewrite E0, Z.add_0_r in *. split; [|rewrite Eq; auto]. destruct Hm as [->|Hm]; [|exact Hm]. change (len []) with 0%Z. lia. }
    apply Z.eqb_neq in E0. destruct (client_read c) as [[data ne] c2] eqn:R. destruct (read_coming _ _ _ _ R) as (p & Ep & HR).
    destruct ne as [[|]|].
    { injection E as <- <- <- <-. exists p. split; [exact Ep|]. left. exact HR. }
    { injection E as <- <- <- <-. exists p. split; [exact Ep|]. right; right. cbn [berr_eof snd]. split; [congruence|]. rewrite Ee, Eq. split; [exact Hf|].
      destruct HS as [HS|(u & Ea & HS)]; [left; exact HS|right]. exists u. destruct HR as [-> _]. auto. }
    destruct HR as (HR & Hp & _). destruct (bd_left b >? max)%Z eqn:El; rewrite Z.gtb_ltb in El.
    { apply Z.ltb_lt in El. injection E as <- <- <- <-. exists p. split; [exact Ep|]. right; right. split; [cbn; congruence|]. cbn [berr_eof snd]. rewrite Ee, Eq. auto. }
    apply Z.ltb_ge in El. destruct HS as [HS|(u & Ea & Hn & Hl & Hm)]; [lia|].
    assert (Hm' : (len u + bd_left b <= max)%Z) by (destruct Hm as [->|Hm]; [change (len []) with 0%Z; lia|exact Hm]).
    destruct (len data >=? bd_left b)%Z eqn:Eg; rewrite Z.geb_leb in Eg.
    + apply Z.leb_le in Eg. injection E as <- <- <- <-. exists p. split; [exact Ep|]. right; right. split; [cbn; congruence|]. cbn [berr_eof snd set_eof set_left bd_eof bd_cs].
      split; [exact Hf|]. exists (u ++ firstn (Z.to_nat (bd_left b)) data).
      assert (Lf : len (firstn (Z.to_nat (bd_left b)) data) = bd_left b) by (unfold len in *; rewrite firstn_length; lia).
      split; [rewrite len_app; lia|]. rewrite Eq. change 18446744073709551616%Z with two64. split; [|rewrite len_app; lia].
      rewrite Ea, HR. unfold coming at 2. cbn [client_unread cl_pending cl_net]. unfold coming. rewrite Hp. cbn [app]. rewrite <- app_assoc. f_equal. rewrite app_assoc, firstn_skipn. reflexivity.
    + apply Z.leb_gt in Eg. injection E as <- <- <- <-. exists p. split; [exact Ep|]. right; right. split; [cbn; congruence|]. cbn [berr_eof snd set_left bd_eof bd_cs bd_left]. rewrite Ee, Eq.
      split; [exact Hf|]. right. exists (u ++ data). split; [rewrite Ea, HR, app_assoc; reflexivity|]. rewrite len_app. repeat split; lia.
Qed.
(* setting the buffers of the accessors changes nothing *)
Lemma sync_full : forall f cap b c, Sync b c -> Sync (set_full f cap b) c. Proof. intros f cap b c H. exact H. Qed.
Lemma sync_stash : forall p e b c, Sync b c -> Sync (set_stash p e b) c. Proof. intros p e b c H. exact H. Qed.
Lemma bytes_loop_input : forall n (b : body CS) c x b' c', bytes_loop cparse max n b c = (x, b', c') -> exists before, cl_net c = before ++ cl_net c'.
Proof.
  induction n as [|n IH]; intros b c x b' c' H; cbn [bytes_loop] in H; [injection H as <- <- <-; exists []; reflexivity|].
  destruct (retrieve cparse max b c) as [[[d e] b1] c1] eqn:R. destruct (retrieve_input _ _ _ _ _ R) as (p & Ep).
  destruct e as [[| | |]|]; try (injection H as <- <- <-; exists p; exact Ep). destruct (IH _ _ _ _ _ H) as (p2 & E2). exists (p ++ p2). rewrite Ep, E2. apply app_assoc.
Qed.
Lemma bytes_loop_sync : forall n (b : body CS) c x b' c', bytes_loop cparse max n b c = (x, b', c') -> Sync b c -> Went (turned_down (RBytes x)) c b' c'.
Proof.
  induction n as [|n IH]; intros b c x b' c' H HS; cbn [bytes_loop] in H; [injection H as <- <- <-; apply went_refl; exact HS|].
  destruct (retrieve cparse max b c) as [[[d e] b1] c1] eqn:R. pose proof (retrieve_sync _ _ _ _ _ _ R HS) as G.
  destruct e as [[| | |]|]; try (injection H as <- <- <-; exact G).
  pose proof (went_trans false _ _ _ _ _ _ G (IH _ _ _ _ _ H) (bytes_loop_input _ _ _ _ _ _ H)) as K. exact K.
Qed.
Lemma bytes_input : forall (b : body CS) c x b' c', body_bytes cparse max b c = (x, b', c') -> exists before, cl_net c = before ++ cl_net c'.
Proof.
  intros b c x b' c' H. unfold body_bytes in H. destruct (bd_eof b); [injection H as <- <- <-; exists []; reflexivity|]. cbv zeta in H.
  destruct (_ && _); [injection H as <- <- <-; exists []; reflexivity|]. eapply bytes_loop_input. exact H.
Qed.
Lemma bytes_sync : forall (b : body CS) c x b' c', body_bytes cparse max b c = (x, b', c') -> Sync b c -> Went (turned_down (RBytes x)) c b' c'.
Proof.
  intros b c x b' c' H HS. unfold body_bytes in H. destruct (bd_eof b); [injection H as <- <- <-; apply went_refl; exact HS|]. cbv zeta in H.
  destruct (_ && _ (* no memory *)); [injection H as <- <- <-; apply went_refl; exact HS|]. eapply bytes_loop_sync; [exact H|apply sync_full; exact HS].
Qed.
Lemma callback_input : forall n cb seen (b : body CS) c ps x b' c', callback_loop cparse max n cb seen b c = (ps, x, b', c') -> exists before, cl_net c = before ++ cl_net c'.
Proof.
  induction n as [|n IH]; intros cb seen b c ps x b' c' H; cbn [callback_loop] in H; [injection H as <- <- <- <-; exists []; reflexivity|].
  destruct (retrieve cparse max b c) as [[[d e] b1] c1] eqn:R. destruct (retrieve_input _ _ _ _ _ R) as (p & Ep).
  destruct e as [[| | |]|]; try (injection H as <- <- <- <-; exists p; exact Ep). destruct (cb _); [|injection H as <- <- <- <-; exists p; exact Ep].
  destruct (IH _ _ _ _ _ _ _ _ H) as (p2 & E2). exists (p ++ p2). rewrite Ep, E2. apply app_assoc.
Qed.
Lemma callback_sync : forall n cb seen (b : body CS) c ps x b' c', callback_loop cparse max n cb seen b c = (ps, x, b', c') -> Sync b c -> Went (turned_down (RCallback ps x)) c b' c'.
Proof.
  induction n as [|n IH]; intros cb seen b c ps x b' c' H HS; cbn [callback_loop] in H; [injection H as <- <- <- <-; apply went_refl; exact HS|].
  destruct (retrieve cparse max b c) as [[[d e] b1] c1] eqn:R. pose proof (retrieve_sync _ _ _ _ _ _ R HS) as G.
  destruct e as [[| | |]|]; try (injection H as <- <- <- <-; exact G).
  - injection H as <- <- <- <-. destruct (cb _); exact G.
  - destruct (cb _); [|injection H as <- <- <- <-; exact G].
    exact (went_trans false _ _ _ _ _ _ G (IH _ _ _ _ _ _ _ _ H) (callback_input _ _ _ _ _ _ _ _ _ H)).
Qed.
Lemma discard_input : forall n (b : body CS) c x b' c', discard_loop cparse max n b c = (x, b', c') -> exists before, cl_net c = before ++ cl_net c'.
Proof.
  induction n as [|n IH]; intros b c x b' c' H; cbn [discard_loop] in H; [injection H as <- <- <-; exists []; reflexivity|].
  destruct (bd_eof b); [injection H as <- <- <-; exists []; reflexivity|].
  destruct (retrieve cparse max b c) as [[[d e] b1] c1] eqn:R. destruct (retrieve_input _ _ _ _ _ R) as (p & Ep).
  destruct e as [[| | |]|]; try (injection H as <- <- <-; exists p; exact Ep). destruct (IH _ _ _ _ _ H) as (p2 & E2). exists (p ++ p2). rewrite Ep, E2. apply app_assoc.
Qed.
Lemma discard_sync : forall n (b : body CS) c x b' c', discard_loop cparse max n b c = (x, b', c') -> Sync b c -> Went (turned_down (RDiscard x)) c b' c'.
Proof.
  induction n as [|n IH]; intros b c x b' c' H HS; cbn [discard_loop] in H; [injection H as <- <- <-; apply went_refl; exact HS|].
  destruct (bd_eof b); [injection H as <- <- <-; apply went_refl; exact HS|].
  destruct (retrieve cparse max b c) as [[[d e] b1] c1] eqn:R. pose proof (retrieve_sync _ _ _ _ _ _ R HS) as G.
  destruct e as [[| | |]|]; try (injection H as <- <- <-; exact G).
  exact (went_trans false _ _ _ _ _ _ G (IH _ _ _ _ _ H) (discard_input _ _ _ _ _ _ H)).
Qed.
(* a discarded body is at its end *)
Lemma discard_end : forall n (b : body CS) c b' c', discard_loop cparse max n b c = (Some None, b', c') -> bd_eof b' = true.
Proof.
  induction n as [|n IH]; intros b c b' c' H; cbn [discard_loop] in H; [discriminate|]. destruct (bd_eof b) eqn:Ee; [injection H as <- <-; exact Ee|].
  destruct (retrieve cparse max b c) as [[[d e] b1] c1] eqn:R. destruct e as [[| | |]|]; try discriminate; [|eapply IH; exact H].
  injection H as <- <-. unfold retrieve in R. rewrite Ee in R. destruct (if bd_chunked b then _ else _) as [[y b2] c2]. injection R as -> <- <-. reflexivity.
Qed.
Lemma op_input : forall op (b : body CS) c o b' c', body_op cparse max op b c = (o, b', c') -> exists before, cl_net c = before ++ cl_net c'.
Proof.
  intros op b c o b' c' H. destruct op; cbn [body_op] in H.
  - destruct (body_bytes cparse max b c) as [[x b1] c1] eqn:E. injection H as <- <- <-. eapply bytes_input. exact E.
  - destruct (retrieve cparse max b c) as [[[d e] b1] c1] eqn:E. injection H as <- <- <-. eapply retrieve_input. exact E.
  - destruct (body_read cparse max n b c) as [[[d e] b1] c1] eqn:E. injection H as <- <- <-. unfold body_read in E.
    destruct (bd_pending b); [destruct (bd_error b)|]; try (injection E as <- <- <- <-; exists []; reflexivity).
    destruct (retrieve cparse max b c) as [[[d0 e0] b2] c2] eqn:R. injection E as <- <- <- <-. eapply retrieve_input. exact R.
  - destruct (body_callback cparse max cb b c) as [[[ps x] b1] c1] eqn:E. injection H as <- <- <-. eapply callback_input. exact E.
  - destruct (body_discard cparse max b c) as [[x b1] c1] eqn:E. injection H as <- <- <-. eapply discard_input. exact E.
Qed.
Lemma failure_empty : forall (b : body CS) c d e b' c', retrieve cparse max b c = ((d, e), b', c') -> refusal e = true -> d = [].
Proof.
  intros b c d e b' c' H He. unfold retrieve in H. destruct (bd_eof b); [injection H as <- <- <- <-; discriminate He|].
  destruct (bd_chunked b).
  - destruct (chunked_read cparse max b c) as [[y b1] c1] eqn:E. injection H as -> <- <-. unfold chunked_read in E.
    destruct (client_read c) as [[data ne] c2]. destruct ne; [injection E as <- <- <- <-; reflexivity|]. destruct (cparse _ _ _) as [cs' [[chunk extra] ce]].
    destruct ce as [[|]|]; [destruct (_ || _)| |destruct (_ || _)]; injection E as <- <- <- <-; try reflexivity; discriminate He.
  - destruct (plain_read max b c) as [[y b1] c1] eqn:E. injection H as -> <- <-. unfold plain_read in E.
    destruct (bd_left b =? 0)%Z; [injection E as <- <- <- <-; reflexivity|]. destruct (client_read c) as [[data ne] c2]. destruct ne; [injection E as <- <- <- <-; reflexivity|].
    destruct (_ >? _)%Z; [injection E as <- <- <- <-; reflexivity|]. destruct (_ >=? _)%Z; injection E as <- <- <- <-; discriminate He.
Qed.
Lemma op_sync : forall op (b : body CS) c o b' c', body_op cparse max op b c = (o, b', c') -> Sync b c -> Went (turned_down o) c b' c'.
Proof.
  intros op b c o b' c' H HS. destruct op; cbn [body_op] in H.
  - destruct (body_bytes cparse max b c) as [[x b1] c1] eqn:E. injection H as <- <- <-. eapply bytes_sync; eassumption.
  - destruct (retrieve cparse max b c) as [[[d e] b1] c1] eqn:E. injection H as <- <- <-. eapply retrieve_sync; eassumption.
  - destruct (body_read cparse max n b c) as [[[d e] b1] c1] eqn:E. injection H as <- <- <-. unfold body_read in E.
    assert (Q : forall (bb : body CS) cc, Sync bb cc -> forall z, exists before, cl_net cc = before ++ cl_net cc /\ (hung_up before \/ (z = true /\ enc_chunked (r_encoding q) = true) \/ Sync bb cc)) by (intros; exists []; auto).
    destruct (bd_pending b) eqn:Ep; [destruct (bd_error b) eqn:Eb|]; try (injection E as <- <- <- <-; apply Q, sync_stash; exact HS).
    destruct (retrieve cparse max b c) as [[[d0 e0] b2] c2] eqn:R. cbn [set_stash bd_pending bd_error] in E. injection E as <- <- <- <-.
    destruct (retrieve_sync _ _ _ _ _ _ R HS) as (p & E1 & E2). exists p. split; [exact E1|]. destruct E2 as [E2|[[E2 E3]|E2]]; [left; exact E2| |right; right; exact E2].
    right; left. split; [|exact E3]. rewrite (failure_empty _ _ _ _ _ _ R E2), skipn_nil. exact E2.
  - destruct (body_callback cparse max cb b c) as [[[ps x] b1] c1] eqn:E. injection H as <- <- <-. eapply callback_sync; eassumption.
  - destruct (body_discard cparse max b c) as [[x b1] c1] eqn:E. injection H as <- <- <-. eapply discard_sync; eassumption.
Qed.
(* a handler *)
Section Handler.
Variable W : Type.
Lemma handler_input : forall (ok : option fields -> Prop) panics (h : hprog W), Tame ok panics h -> forall r (b : body CS) c,
  match run_handler cparse max h r b c with
  | HDone resp _ _ b' c' => ok resp /\ exists before, cl_net c = before ++ cl_net c'
  | HPanic _ b' c' => exists before, cl_net c = before ++ cl_net c'
  | HStuck => True
  end.
Proof.
  assert (Tr : forall c c1 c2, (exists p, cl_net c = p ++ cl_net c1) -> (exists p, cl_net c1 = p ++ cl_net c2) -> exists p, cl_net c = p ++ cl_net c2).
  { intros c c1 c2 (p & E) (p2 & E2). exists (p ++ p2). rewrite E, E2. apply app_assoc. }
  intros ok panics h H. induction H as [ok panics resp w H|ok|ok panics op k H IH|ok panics g k Hg H IH|ok panics k H IH|ok mid panics p q0 k Hp IHp Hq IHq Hk IHk]; intros r b c; cbn [run_handler].
  - split; [exact H|exists []; reflexivity].
  - exists []; reflexivity.
  - destruct (body_op cparse max op b c) as [[o b'] c'] eqn:E. pose proof (op_input _ _ _ _ _ _ E) as Ep. destruct (stops o) as [[|]|]; [exact Ep|exact I|].
    specialize (IH o r b' c'). destruct (run_handler cparse max (k o) r b' c'); [destruct IH as [IHo IH]; split; [exact IHo|]| |exact I]; eapply Tr; eassumption.
  - apply IH.
  - apply IH.
  - specialize (IHp r b c). destruct (run_handler cparse max p r b c) as [resp w r' b' c'|r' b' c'|]; [| |exact I].
    + destruct IHp as [Ho E1]. specialize (IHk resp w Ho r' b' c').
      destruct (run_handler cparse max (k resp w) r' b' c'); [destruct IHk as [IHo IH]; split; [exact IHo|]| |exact I]; eapply Tr; eassumption.
    + specialize (IHq r' b' c'). destruct (run_handler cparse max q0 r' b' c') as [resp w r2 b2 c2|r2 b2 c2|]; [|eapply Tr; eassumption|exact I].
      destruct IHq as [Ho E1]. specialize (IHk resp w Ho r2 b2 c2).
      destruct (run_handler cparse max (k resp w) r2 b2 c2); [destruct IHk as [IHo IH]; split; [exact IHo|]| |exact I]; eapply Tr; try eassumption; eapply Tr; eassumption.
Qed.
Lemma handler_sync : forall (ok : option fields -> Prop) panics (h : hprog W), Tame ok panics h -> forall r (b : body CS) c, Sync b c ->
  match run_handler cparse max h r b c with
  | HDone _ _ _ b' c' | HPanic _ b' c' => Went (existsb turned_down (told cparse max h r b c)) c b' c'
  | HStuck => True
  end.
Proof.
  intros ok panics h H. induction H as [ok panics resp w H|ok|ok panics op k H IH|ok panics g k Hg H IH|ok panics k H IH|ok mid panics p q0 k Hp IHp Hq IHq Hk IHk]; intros r b c HS; cbn [run_handler told].
  - apply went_refl; exact HS.
  - apply went_refl; exact HS.
  - destruct (body_op cparse max op b c) as [[o b'] c'] eqn:E. pose proof (op_sync _ _ _ _ _ _ E HS) as G. cbn [existsb]. destruct (stops o) as [[|]|]; [cbn [existsb]; rewrite Bool.orb_false_r; exact G|exact I|].
    specialize (IH o r b' c'). pose proof (handler_input _ _ _ (H o) r b' c') as J. destruct (run_handler cparse max (k o) r b' c'); [destruct J as [_ J]| |exact I]; eapply went_trans; eassumption.
  - apply IH; exact HS.
  - apply IH; exact HS.
  - specialize (IHp r b c HS). pose proof (handler_input _ _ _ Hp r b c) as Jp. destruct (run_handler cparse max p r b c) as [resp w r' b' c'|r' b' c'|]; [| |exact I].
    + destruct Jp as [Ho _]. specialize (IHk resp w Ho r' b' c'). pose proof (handler_input _ _ _ (Hk resp w Ho) r' b' c') as J. rewrite existsb_app.
      destruct (run_handler cparse max (k resp w) r' b' c'); [destruct J as [_ J]| |exact I]; eapply went_trans; eassumption.
    + specialize (IHq r' b' c'). pose proof (handler_input _ _ _ Hq r' b' c') as Jq. destruct (run_handler cparse max q0 r' b' c') as [resp w r2 b2 c2|r2 b2 c2|]; [| |exact I].
      * destruct Jq as [Ho Jq]. specialize (IHk resp w Ho r2 b2 c2). pose proof (handler_input _ _ _ (Hk resp w Ho) r2 b2 c2) as J. rewrite !existsb_app.
        pose proof (went_trans _ _ _ _ _ _ _ IHp IHq Jq) as G. rewrite Bool.orb_assoc.
        destruct (run_handler cparse max (k resp w) r2 b2 c2); [destruct J as [_ J]| |exact I]; eapply went_trans; eassumption.
      * rewrite !existsb_app. cbn [existsb]. rewrite Bool.orb_false_r. eapply went_trans; eassumption.
Qed.
End Handler.
End Sync.
(* the body of a request, at its beginning *)
Lemma init_sync : forall CS encoded fresh begun cparse, DecoderSound CS cparse encoded fresh begun -> forall max q (b : body CS) c, (0 <= max < two64)%Z -> fresh (bd_cs b) ->
  Sync CS encoded fresh begun max q (coming c) (body_init b q) c.
Proof.
  intros CS encoded fresh begun cparse HD max q b c Hm Hf. unfold Sync, body_init. destruct (enc_chunked (r_encoding q)) eqn:Eq; cbn.
  - split; [reflexivity|]. split; [reflexivity|]. exists [], []. split; [reflexivity|]. split; [apply (ds_start _ _ _ _ _ HD); exact Hf|reflexivity].
  - split; [reflexivity|]. split; [exact Hf|]. right. exists []. split; [reflexivity|].
    unfold wrap_u64. pose proof (Z.mod_pos_bound (r_content_length q) two64 eq_refl). repeat split; try lia. left; reflexivity.
Qed.
Theorem next_request : forall CS cparse encoded fresh begun, DecoderSound CS cparse encoded fresh begun -> forall max, (0 <= max < two64)%Z ->
  forall W on_request on_error (st : conn CS W) extra st', let r := p_req (k_parser st) in
  fresh (bd_cs (k_body st)) -> LeavesAlone (on_request (k_world st) r) ->
  on_head cparse max on_request on_error st extra = inr st' ->
  let c := client_unread (k_client st) extra in
  exists before, cl_net (k_client st) = before ++ cl_net (k_client st') /\
    (hung_up before \/
     (enc_chunked (r_encoding r) = true /\ exists o, In o (told cparse max (on_request (k_world st) r) r (body_init (k_body st) r) c) /\ turned_down o = true) \/
     exists text, OneBody encoded max r (coming c) text (coming (k_client st')) /\ fresh (bd_cs (k_body st'))).
Proof.
  intros CS cparse encoded fresh begun HD max Hm W on_request on_error st extra st' r Hf Hl H c.
  unfold on_head in H. fold r in H. destruct (if wants_switch r then _ else _) as [[s pre] version]. fold c in H.
  pose proof (init_sync CS encoded fresh begun cparse HD max r (k_body st) c Hm Hf) as S0.
  pose proof (handler_sync CS cparse encoded fresh begun HD max Hm r (coming c) W _ _ _ Hl r _ _ S0) as G.
  destruct (run_handler cparse max (on_request (k_world st) r) r (body_init (k_body st) r) c) as [resp w r' b' c'|r' b' c'|]; try discriminate.
  destruct (r_hijacked r'); [discriminate|]. destruct (write_response version r' (not_nil resp) s c') as [[[res s'] c''] f''] eqn:Ew.
  destruct (write_response_input _ _ _ _ _ _ _ _ _ Ew) as [[E1 E2] _].
  destruct res; try discriminate.
  destruct (request_clear_full cparse max r' b' c'') as [[[res2 r2] b2] c2] eqn:Ec. destruct res2 as [[e|]|]; try discriminate. injection H as <-.
  unfold request_clear_full in Ec. destruct (body_discard cparse max b' c'') as [[res b1] c1] eqn:Ed. cbn [k_client k_body].
  destruct res as [[e|]|]; try discriminate. injection Ec as <- <- <-.
  assert (J : exists before, cl_net c'' = before ++ cl_net c1) by (eapply discard_input; exact Ed).
  assert (K : Went CS encoded fresh begun max r (coming c) (existsb turned_down (told cparse max (on_request (k_world st) r) r (body_init (k_body st) r) c) || false) c b1 c1).
  { eapply went_trans; [exact G| |rewrite <- E1; exact J]. intros S1.
    assert (S2 : Sync CS encoded fresh begun max r (coming c) b' c'') by (unfold Sync, coming in *; rewrite E1, E2; exact S1).
    pose proof (discard_sync CS cparse encoded fresh begun HD max Hm r (coming c) _ _ _ _ _ _ Ed S2) as (p & P1 & P2). exists p. split; [rewrite <- E1; exact P1|exact P2]. }
  rewrite Bool.orb_false_r in K. destruct K as (p & P1 & P2). exists p. split; [exact P1|]. destruct P2 as [P2|[[P2 P3]|P2]]; [left; exact P2| |right; right].
  - right; left. split; [exact P3|]. apply existsb_exists in P2. exact P2.
  - destruct P2 as [_ P2]. rewrite (discard_end _ _ _ _ _ _ _ _ Ed) in P2. destruct P2 as (P2 & text & P3). exists text. auto.
Qed.
