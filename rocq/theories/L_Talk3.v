(* Lemmas: connections that receive any bytes, to their end. *)
From Verif Require Import M_Base M_Status M_Method M_Proto M_KeyValue M_Query M_Request M_Parser M_Client M_Body
  M_Response M_Serializer M_Suit M_Path M_Radix M_Router S_KeyValue S_Chunk S_Head S_Parser S_Body S_Response S_Split S_Verdict S_Arrive S_Conn S_Unversioned S_Iso S_Routes S_Router S_Serve S_Upgrade S_Talk
  L_Base L_Head L_Body L_Body2 L_Body3 L_BodyProps L_Chunk L_Response L_Response2 L_Response3 L_Attach L_ParserProps L_Conn L_Conn2 L_Conn3 L_Iso L_Upgrade L_Verdict L_Router4 L_Router5 L_Router6 L_Router7 L_Serve L_VerdictConn L_Arrive6 L_Arrive7 L_Talk L_Talk2.

(* ---- the bytes of a request are cut in one way ---- *)
Lemma encoded_one : forall CS cparse encoded fresh inside, DecoderOk CS cparse encoded fresh inside ->
  forall n s tr w1 d1 r1 w2 d2 r2, (List.length (w1 ++ r1) <= n)%nat -> inside s tr w1 d1 -> inside s tr w2 d2 -> w1 <> [] -> w2 <> [] -> w1 ++ r1 = w2 ++ r2 -> w1 = w2 /\ d1 = d2 /\ r1 = r2.
Proof.
  intros CS cparse encoded fresh inside HD. induction n as [|n IH]; intros s tr w1 d1 r1 w2 d2 r2 Hn I1 I2 N1 N2 E.
  { destruct w1; [congruence|cbn in Hn; lia]. }
  assert (E1 : (w1 ++ r1) ++ [] = w1 ++ r1) by apply app_nil_r. assert (E2 : (w1 ++ r1) ++ [] = w2 ++ r2) by (rewrite app_nil_r; exact E).
  destruct (dk_step _ _ _ _ _ HD _ _ _ _ _ _ _ I1 E1) as (s1 & ch1 & x1 & e1 & P1 & D1).
  destruct (dk_step _ _ _ _ _ HD _ _ _ _ _ _ _ I2 E2) as (s2 & ch2 & x2 & e2 & P2 & D2).
  rewrite P1 in P2. injection P2 as <- <- <- <-.
  destruct D1 as [(-> & u1 & v1 & t1 & A1 & A2 & A3 & A4 & A5 & A6)|(-> & A1 & A2 & A3)];
    destruct D2 as [(Q & u2 & v2 & t2 & B1 & B2 & B3 & B4 & B5 & B6)|(Q & B1 & B2 & B3)]; try discriminate Q.
  - rewrite A1 in B1. apply app_inv_tail in B1. subst u2. subst w1 w2. rewrite <- !app_assoc in E. apply app_inv_head in E.
    destruct A5 as [A5|A5]; [|destruct u1; [destruct v1; [congruence|discriminate A5]|discriminate A5]].
    destruct (IH s1 tr v1 t1 r1 v2 t2 r2) as (-> & -> & ->); auto.
    + rewrite <- app_assoc, app_length in Hn. destruct u1; [congruence|cbn in Hn; lia].
    + subst. auto.
  - rewrite A1 in B1. apply app_inv_tail in B1. subst w2. apply app_inv_head in E. subst. auto.
Qed.
Lemma as_int64_one : forall n z z', as_int64 n z -> as_int64 n z' -> z = z'.
Proof. intros n z z' (A & k & E) (B & k' & E'). lia. Qed.
Lemma taken_alike : forall lim r0 h r h' r', TakenFrom lim r0 h r -> TakenFrom lim r0 h r' -> TakenFrom lim r0 h' r' ->
  enc_chunked (r_encoding r) = enc_chunked (r_encoding r') /\ enc_trailer (r_encoding r) = enc_trailer (r_encoding r') /\ r_content_length r = r_content_length r'.
Proof.
  intros lim r0 h r h' r' (_ & hs & T) (_ & hs' & T') _.
  split; [exact (eq_trans (ta_chunked _ _ _ _ T) (eq_sym (ta_chunked _ _ _ _ T')))|]. split; [exact (eq_trans (ta_trailer _ _ _ _ T) (eq_sym (ta_trailer _ _ _ _ T')))|].
  pose proof (ta_length _ _ _ _ T) as L. pose proof (ta_length _ _ _ _ T') as L'. unfold LengthAs in *. destruct (existsb _ _).
  - exact (as_int64_one _ _ _ L L').
  - exact (eq_trans L (eq_sym L')).
Qed.
Definition framing (r : request) := (enc_chunked (r_encoding r), enc_trailer (r_encoding r), r_content_length r).
Lemma same_framing : forall cfg umax kmax vmax reads h rest h' rest' r r', (0 <= umax)%Z -> let lim := cfg_limits cfg umax kmax vmax in
  HeadHeard lim reads (VTaken h rest) -> HeadHeard lim reads (VTaken h' rest') -> Heard lim h r -> Heard lim h' r' -> rest = rest' /\ framing r = framing r'.
Proof.
  intros cfg umax kmax vmax reads h rest h' rest' r r' HU lim H H' (r0 & T & V & _) (r0' & T' & V' & _).
  destruct (head_follow cfg umax kmax vmax HU _ _ H (new_parser umax kmax vmax new_request) (new_parser_ready _ _ _ _)) as (p & ex & F & X & Tp).
  destruct (head_follow cfg umax kmax vmax HU _ _ H' (new_parser umax kmax vmax new_request) (new_parser_ready _ _ _ _)) as (p' & ex' & F' & X' & Tp').
  rewrite F in F'. injection F' as <- <-. split; [congruence|].
  destruct (taken_alike _ _ _ _ _ _ T Tp Tp) as (A1 & A2 & A3). destruct (taken_alike _ _ _ _ _ _ T' Tp' Tp') as (B1 & B2 & B3).
  unfold framing. rewrite (sv_encoding _ _ V), (sv_clen _ _ V), (sv_encoding _ _ V'), (sv_clen _ _ V'), A1, A2, A3, B1, B2, B3. reflexivity.
Qed.
Lemma same_path : forall cfg umax kmax vmax reads h rest h' rest', (0 <= umax)%Z -> let lim := cfg_limits cfg umax kmax vmax in
  HeadHeard lim reads (VTaken h rest) -> HeadHeard lim reads (VTaken h' rest') -> h_decoded h = h_decoded h'.
Proof.
  intros cfg umax kmax vmax reads h rest h' rest' HU lim H H'.
  destruct (head_follow cfg umax kmax vmax HU _ _ H (new_parser umax kmax vmax new_request) (new_parser_ready _ _ _ _)) as (p & ex & F & X & _ & hs & T).
  destruct (head_follow cfg umax kmax vmax HU _ _ H' (new_parser umax kmax vmax new_request) (new_parser_ready _ _ _ _)) as (p' & ex' & F' & X' & _ & hs' & T').
  rewrite F in F'. injection F' as <- <-. exact (eq_trans (eq_sym (ta_path _ _ _ _ T)) (ta_path _ _ _ _ T')).
Qed.
Lemma body_framing : forall encoded max r r' rest text rest', framing r = framing r' -> BodyOf encoded max r rest text rest' -> BodyOf encoded max r' rest text rest'.
Proof. intros encoded max r r' rest text rest' E [L H]. injection E as E1 E2 E3. split; [exact L|]. rewrite <- E1, <- E2, <- E3. exact H. Qed.
Lemma body_one : forall CS cparse encoded fresh inside, DecoderOk CS cparse encoded fresh inside -> (exists s, fresh s) ->
  forall max r rest text rest' text2 rest2, BodyOf encoded max r rest text rest' -> BodyOf encoded max r rest text2 rest2 -> text = text2 /\ rest' = rest2.
Proof.
  intros CS cparse encoded fresh inside HD (s & Hs) max r rest text rest' text2 rest2 [_ H] [_ H2]. destruct (enc_chunked (r_encoding r)).
  - destruct H as (w & E & X). destruct H2 as (w2 & E2 & X2). rewrite E in E2.
    destruct (encoded_one _ _ _ _ _ HD _ s _ w text rest' w2 text2 rest2 (le_n _) (dk_start _ _ _ _ _ HD _ _ _ _ Hs X) (dk_start _ _ _ _ _ HD _ _ _ _ Hs X2)
      (dk_nonempty _ _ _ _ _ HD _ _ _ X) (dk_nonempty _ _ _ _ _ HD _ _ _ X2) E2) as (_ & -> & ->). auto.
  - destruct H as (E & L & _). destruct H2 as (E2 & L2 & _). rewrite E in E2. unfold len in *.
    assert (Hl : List.length text = List.length text2) by lia.
    assert (X : forall (a b c d : bytes), List.length a = List.length b -> a ++ c = b ++ d -> a = b /\ c = d).
    { induction a as [|y a IHa]; intros [|z b] c d Hl' Ee; try discriminate Hl'; [auto|]. injection Ee as -> Ee. destruct (IHa b c d) as [-> ->]; auto. }
    apply X; assumption.
Qed.

(* ---- it is decided whether the body is there ---- *)
Lemma body_decided : forall encoded max, Decided encoded max -> forall r rest,
  (exists text rest', BodyOf encoded max r rest text rest') \/ ~ (exists text rest', BodyOf encoded max r rest text rest').
Proof.
  intros encoded max HD r rest. unfold BodyOf. destruct (enc_chunked (r_encoding r)).
  - destruct (HD (enc_trailer (r_encoding r)) rest) as [(w & d & s' & E & X & L)|N].
    + left. exists d, s'. split; [exact L|]. exists w. auto.
    + right. intros (d & s' & L & w & E & X). apply N. exists w, d, s'. auto.
  - destruct (Z_le_dec 0 (r_content_length r)) as [Z0|Z0]; [|right; intros (t & s & _ & _ & E & _); unfold len in E; lia].
    destruct (Z_le_dec (r_content_length r) (len rest)) as [Z1|Z1];
      [|right; intros (t & s & _ & E0 & E & _); apply Z1; rewrite E, E0; unfold len; rewrite app_length; lia].
    destruct (Z_le_dec (r_content_length r) max) as [Z2|Z2]; [|right; intros (t & s & L & _ & E & _); lia].
    destruct (Z_le_dec (r_content_length r) max_alloc) as [Z3|Z3]; [|right; intros (t & s & _ & _ & E & L); lia].
    left. exists (firstn (Z.to_nat (r_content_length r)) rest), (skipn (Z.to_nat (r_content_length r)) rest).
    assert (EL : len (firstn (Z.to_nat (r_content_length r)) rest) = r_content_length r) by (unfold len in *; rewrite firstn_length; lia).
    rewrite EL. rewrite firstn_skipn. auto.
Qed.
(* for the chunked coding it is *)
Definition khex (n : N) (h : bytes) : option N := fold_left (fun a c => match a, hex_value c with Some n, Some v => Some (16 * n + v)%N | _, _ => None end) h (Some n).
(* what is accepted from a state *)
Definition kmeans (s : kstate) (w d : bytes) : Prop :=
  match s with
  | KSize n seen => exists h m rest, w = h ++ CRLF ++ rest /\ (seen = true \/ h <> []) /\ khex n h = Some m /\
      (m = 0%N /\ rest = CRLF /\ d = [] \/ exists x w' t, x <> [] /\ m = N.of_nat (List.length x) /\ rest = x ++ CRLF ++ w' /\ d = x ++ t /\ Chunked w' t)
  | KSizeLF m => exists rest, w = LF :: rest /\
      (m = 0%N /\ rest = CRLF /\ d = [] \/ exists x w' t, x <> [] /\ m = N.of_nat (List.length x) /\ rest = x ++ CRLF ++ w' /\ d = x ++ t /\ Chunked w' t)
  | KData m => exists x w' t, w = x ++ CRLF ++ w' /\ d = x ++ t /\ Chunked w' t /\ (m = N.of_nat (List.length x) /\ x <> [] \/ m = 0%N)
  | KDataCR => exists w', w = CRLF ++ w' /\ Chunked w' d
  | KDataLF => exists w', w = LF :: w' /\ Chunked w' d
  | KEndCR => w = CRLF /\ d = []
  | KEndLF => w = [LF] /\ d = []
  end.
Lemma kmeans_chunked : forall w d, kmeans (KSize 0 false) w d -> Chunked w d.
Proof.
  intros w d (h & m & rest & -> & [X|N] & E & H); [discriminate X|]. change (khex 0 h) with (hex_number h) in E.
  destruct H as [(-> & -> & ->)|(x & w' & t & Nx & -> & -> & -> & C)]; [exact (Ch_last h N E)|exact (Ch_more h x w' t N Nx E C)].
Qed.
Definition kvalid (s : kstate) : Prop := match s with KData n => n <> 0%N | _ => True end.
Lemma accepts_means : forall w s d, kvalid s -> kaccepts s w d -> kmeans s w d.
Proof.
  induction w as [|c w IH]; intros s d V H; [destruct H|]. cbn [kaccepts] in H. destruct s as [n seen|n|n| | | |]; cbn [kstep] in H.
  - destruct (Byte.eqb c CR) eqn:Ec.
    + apply beq_eq in Ec. subst c. destruct seen; [|destruct H]. destruct H as (d' & -> & H). destruct (IH (KSizeLF n) _ I H) as (rest & -> & M).
      exists [], n, rest. split; [reflexivity|]. split; [left; reflexivity|]. split; [reflexivity|exact M].
    + destruct (hex_value c) as [v|] eqn:Ev; [|destruct H]. destruct H as (d' & -> & H). destruct (IH (KSize (16 * n + v) true) _ I H) as (h & m & rest & -> & _ & E & M).
      exists (c :: h), m, rest. split; [reflexivity|]. split; [right; discriminate|]. split; [unfold khex in *; cbn [fold_left]; rewrite Ev; exact E|exact M].
  - destruct (Byte.eqb c LF) eqn:Ec; [|destruct H]. apply beq_eq in Ec. subst c. destruct H as (d' & -> & H).
    exists w. split; [reflexivity|]. destruct (n =? 0)%N eqn:En.
    + apply N.eqb_eq in En. destruct (IH KEndCR _ I H) as (-> & ->). left. auto.
    + apply N.eqb_neq in En. destruct (IH (KData n) _ En H) as (x & w' & t & -> & -> & C & [[-> Nx]|X]); [|congruence]. right. exists x, w', t. auto.
  - destruct H as (d' & -> & H). destruct (n =? 1)%N eqn:En.
    + apply N.eqb_eq in En. subst n. destruct (IH KDataCR _ I H) as (w' & -> & C). exists [c], w', d'. split; [reflexivity|]. split; [reflexivity|]. split; [exact C|]. left. split; [reflexivity|discriminate].
    + apply N.eqb_neq in En. cbn [kvalid] in V. destruct (IH (KData (n - 1)) _ ltac:(cbn; lia) H) as (x & w' & t & -> & -> & C & [[E Nx]|X]); [|lia].
      exists (c :: x), w', t. split; [reflexivity|]. split; [reflexivity|]. split; [exact C|]. left. split; [cbn [List.length]; lia|discriminate].
  - destruct (Byte.eqb c CR) eqn:Ec; [|destruct H]. apply beq_eq in Ec. subst c. destruct H as (d' & -> & H). destruct (IH KDataLF _ I H) as (w' & -> & C). exists w'. auto.
  - destruct (Byte.eqb c LF) eqn:Ec; [|destruct H]. apply beq_eq in Ec. subst c. destruct H as (d' & -> & H). exists w. split; [reflexivity|]. apply kmeans_chunked. exact (IH (KSize 0 false) _ I H).
  - destruct (Byte.eqb c CR) eqn:Ec; [|destruct H]. apply beq_eq in Ec. subst c. destruct H as (d' & -> & H). destruct (IH KEndLF _ I H) as (-> & ->). split; reflexivity.
  - destruct (Byte.eqb c LF) eqn:Ec; [|destruct H]. apply beq_eq in Ec. subst c. destruct H as (-> & ->). split; reflexivity.
Qed.
Lemma accepts_decided : forall data s, (exists w d s', data = w ++ s' /\ kaccepts s w d) \/ ~ (exists w d s', data = w ++ s' /\ kaccepts s w d).
Proof.
  induction data as [|c data IH]; intros s.
  - right. intros (w & d & s' & E & H). destruct w; [destruct H|discriminate E].
  - destruct (kstep s c) as [s1 out| |] eqn:Ek.
    + destruct (IH s1) as [(w & d & s' & -> & H)|N].
      * left. exists (c :: w), (out ++ d), s'. split; [reflexivity|]. cbn [kaccepts]. rewrite Ek. exists d. auto.
      * right. intros (w & d & s' & E & H). destruct w as [|c' w]; [destruct H|]. injection E as <- ->. cbn [kaccepts] in H. rewrite Ek in H. destruct H as (d' & -> & H).
        apply N. exists w, d', s'. auto.
    + left. exists [c], [], data. split; [reflexivity|]. cbn [kaccepts]. rewrite Ek. auto.
    + right. intros (w & d & s' & E & H). destruct w as [|c' w]; [destruct H|]. injection E as <- ->. cbn [kaccepts] in H. rewrite Ek in H. exact H.
Qed.
Theorem chunked_decided : forall max, Decided chunked_text max.
Proof.
  intros max tr s. destruct (accepts_decided s (KSize 0 false)) as [(w & d & s' & E & H)|N].
  - destruct (Z_le_dec (len d) max) as [L|L].
    + left. exists w, d, s'. split; [exact E|]. split; [|exact L]. apply kmeans_chunked, accepts_means; [exact I|exact H].
    + right. intros (w2 & d2 & s2 & E2 & X & L2). pose proof (chunked_accepts _ _ X) as H2. rewrite E in E2.
      destruct (encoded_one _ _ _ _ _ ref_decoder_ok _ (KSize 0 false) tr w d s' w2 d2 s2 (le_n _) H H2) as (_ & -> & _); auto.
      * destruct w; [destruct H|discriminate].
      * destruct w2; [destruct H2|discriminate].
  - right. intros (w2 & d2 & s2 & E2 & X & L2). apply N. exists w2, d2, s2. split; [exact E2|]. apply chunked_accepts. exact X.
Qed.

Lemma turn_answers : forall encoded max lim defs W (A A' : W -> request -> bytes -> option fields -> W -> request -> Prop) reads w past ups out w1 past' ups' rest' open,
  (forall h r w text resp w1 r', Heard lim h r -> forall rest, HeadHeard lim reads (VTaken h rest) -> A w r text resp w1 r' -> A' w r text resp w1 r') ->
  Turn encoded max lim defs A reads w past ups out w1 past' ups' rest' open -> Turn encoded max lim defs A' reads w past ups out w1 past' ups' rest' open.
Proof. intros encoded max lim defs W A A' reads w past ups out w1 past' ups' rest' open HA H. destruct H. eapply Tn; try eassumption. eapply HA; eassumption. Qed.

Lemma heard_path : forall lim h r, Heard lim h r -> r_path r = h_decoded h.
Proof. intros lim h r (r0 & (_ & hs & T) & V & _). rewrite (sv_path _ _ V). exact (ta_path _ _ _ _ T). Qed.
Lemma talk_answers : forall encoded max lim defs W (A A' : W -> request -> bytes -> option fields -> W -> request -> Prop) reads w past ups outs w1 left,
  (forall h r w text resp w1 r', Heard lim h r -> A w r text resp w1 r' -> A' w r text resp w1 r') ->
  Talk encoded max lim defs A reads w past ups outs w1 left -> Talk encoded max lim defs A' reads w past ups outs w1 left.
Proof.
  intros encoded max lim defs W A A' reads w past ups outs w1 left HA H. induction H as [reads w past ups|reads w past ups out w1 past' ups' rest' reads' outs w2 left T E _ IH|reads w past ups out w1 past' ups' rest' T].
  - apply Tk_stop.
  - eapply Tk_open; [|exact E|exact IH]. eapply turn_answers; [|exact T]. intros; eapply HA; eassumption.
  - eapply Tk_close. eapply turn_answers; [|exact T]. intros; eapply HA; eassumption.
Qed.
Definition StopsWithin encoded max lim (served : bytes -> Prop) (reads : list bytes) : Prop :=
  forall h rest, HeadHeard lim reads (VTaken h rest) -> served (h_decoded h) -> forall r text rest', Heard lim h r -> ~ BodyOf encoded max r rest text rest'.
(* handlers for paths that are served *)
Definition Within {W} (served : bytes -> Prop) (A : W -> request -> bytes -> option fields -> W -> request -> Prop) (w : W) (r : request) (text : bytes) (resp : option fields) (w1 : W) (r' : request) : Prop :=
  served (r_path r) /\ A w r text resp w1 r'.

Section Serve.
Variable CS : Type.
Variable cparse : CS -> bytes -> bool -> CS * (bytes * bytes * option cerr).
Variable encoded : bool -> bytes -> bytes -> Prop.
Variable fresh : CS -> Prop.
Variable inside : CS -> bool -> bytes -> bytes -> Prop.
Hypothesis dec_ok : DecoderOk CS cparse encoded fresh inside.
Variable max : Z.
Hypothesis max_uint : (max < two64)%Z.
Variable cfg : hcfg.
Variables umax kmax vmax fbs : Z.
Hypothesis umax_ok : (0 <= umax)%Z.
Variable defs : list entry.
Hypothesis defs_distinct : distinct_names defs.
Variable W : Type.
Variable on_request : W -> request -> hprog W.
Variable on_error : W -> request -> http_error -> hprog W.
Notation conn := (M_Suit.conn CS W).
Notation serve := (M_Suit.serve cparse max cfg on_request on_error).
Notation close_with := (M_Suit.close_with cparse max on_error).
Notation lim := (cfg_limits cfg umax kmax vmax).
Variable P : list (bytes * option neterr) -> Prop.
Hypothesis keeps : KeptByReads P.

Theorem talk : forall served : bytes -> Prop, Decided encoded max -> (forall p, served p \/ ~ served p) ->
  (forall h r, served (h_decoded h) -> Heard lim h r -> forall w, Ordinary fbs (on_request w r)) ->
  forall past ups (st : conn), Amid umax kmax vmax fbs defs fresh past ups st -> P (cl_net (k_client st)) ->
  exists n outs left st1, Talk encoded max lim defs (Within served (Handled on_request)) (reads_of (k_client st)) (k_world st) past ups outs (k_world st1) left /\
    cl_out (k_client st1) = cl_out (k_client st) ++ outs /\
    match left with
    | None => forall fuel, serve (n + fuel)%nat st = close_with EndWrite st1
    | Some (reads, past', ups') => reads = reads_of (k_client st1) /\ StopsWithin encoded max lim served reads /\
        Amid umax kmax vmax fbs defs fresh past' ups' st1 /\ P (cl_net (k_client st1)) /\ forall fuel, serve (n + fuel)%nat st = serve fuel st1
    end.
Proof.
  intros served HD SD ordinary. assert (X : forall k past ups (st : conn), Amid umax kmax vmax fbs defs fresh past ups st -> P (cl_net (k_client st)) -> (List.length (stream (k_client st)) < k)%nat ->
    exists n outs left st1, Talk encoded max lim defs (Within served (Handled on_request)) (reads_of (k_client st)) (k_world st) past ups outs (k_world st1) left /\
    cl_out (k_client st1) = cl_out (k_client st) ++ outs /\
    match left with
    | None => forall fuel, serve (n + fuel)%nat st = close_with EndWrite st1
    | Some (reads, past', ups') => reads = reads_of (k_client st1) /\ StopsWithin encoded max lim served reads /\
        Amid umax kmax vmax fbs defs fresh past' ups' st1 /\ P (cl_net (k_client st1)) /\ forall fuel, serve (n + fuel)%nat st = serve fuel st1
    end).
  2:{ intros past ups st Ha HP. exact (X _ past ups st Ha HP (le_n _)). }
  induction k as [|k IH]; intros past ups st Ha HP Hk; [lia|].
  assert (Stay : StopsWithin encoded max lim served (reads_of (k_client st)) -> exists n outs left st1, Talk encoded max lim defs (Within served (Handled on_request)) (reads_of (k_client st)) (k_world st) past ups outs (k_world st1) left /\
    cl_out (k_client st1) = cl_out (k_client st) ++ outs /\
    match left with
    | None => forall fuel, serve (n + fuel)%nat st = close_with EndWrite st1
    | Some (reads, past', ups') => reads = reads_of (k_client st1) /\ StopsWithin encoded max lim served reads /\
        Amid umax kmax vmax fbs defs fresh past' ups' st1 /\ P (cl_net (k_client st1)) /\ forall fuel, serve (n + fuel)%nat st = serve fuel st1
    end).
  { intros S. exists 0%nat, [], (Some (reads_of (k_client st), past, ups)), st. split; [apply Tk_stop|]. split; [rewrite app_nil_r; reflexivity|]. split; [reflexivity|].
    split; [exact S|]. split; [exact Ha|]. split; [exact HP|reflexivity]. }
  destruct (head_all lim (reads_of (k_client st))) as (v & HV).
  destruct v as [|h rest|named e|]; try (apply Stay; intros h' rest' H'; exfalso; exact (head_agree lim _ _ _ umax_ok HV H')).
  destruct (SD (h_decoded h)) as [Sd|Nd];
    [|apply Stay; intros h' rest' H' S'; exfalso; apply Nd; rewrite (same_path cfg umax kmax vmax _ _ _ _ _ umax_ok HV H'); exact S'].
  destruct (one_turn CS cparse encoded fresh inside dec_ok max max_uint cfg umax kmax vmax fbs umax_ok defs defs_distinct W on_request on_error P keeps past ups st h rest
    (fun w r Hr => ordinary h r Sd Hr w) Ha HP HV) as (r & Hr & HT).
  destruct (body_decided encoded max HD r rest) as [(text & rest' & HB)|N].
  - destruct (HT text rest' HB) as (n & out & past' & ups' & st1 & open & T0 & O & K).
    assert (T : Turn encoded max lim defs (Within served (Handled on_request)) (reads_of (k_client st)) (k_world st) past ups out (k_world st1) past' ups' rest' open).
    { eapply turn_answers; [|exact T0]. intros h' r1 w0 text0 resp0 w1 r1' Hr1 rest1 HV1 HA. split; [|exact HA].
      rewrite (heard_path _ _ _ Hr1), <- (same_path cfg umax kmax vmax _ _ _ _ _ umax_ok HV HV1). exact Sd. }
    destruct open.
    + destruct K as (Ha1 & Hs1 & HP1 & Hl & Hf). destruct (IH past' ups' st1 Ha1 HP1 ltac:(rewrite Hs1; lia)) as (n2 & outs & left & st2 & T2 & O2 & K2).
      exists (n + n2)%nat, (out ++ outs), left, st2. split; [eapply Tk_open; [exact T| |exact T2]; rewrite reads_concat; exact Hs1|].
      split; [rewrite O2, O, app_assoc; reflexivity|]. destruct left as [[[reads past2] ups2]|].
      * destruct K2 as (K2 & K3 & K4 & K6 & K5). repeat (split; [assumption|]). intros fuel. rewrite <- Nat.add_assoc, Hf. apply K5.
      * intros fuel. rewrite <- Nat.add_assoc, Hf. apply K2.
    + exists n, out, None, st1. split; [eapply Tk_close; exact T|]. split; [exact O|exact K].
  - apply Stay. intros h' rest' H' _ r' text rest2 Hr' HB'.
    destruct (same_framing cfg umax kmax vmax _ _ _ _ _ _ _ umax_ok HV H' Hr Hr') as (-> & F). apply N. exists text, rest2. eapply body_framing; [symmetry; exact F|exact HB'].
Qed.
(* what comes of the bytes that are not answered *)
Theorem fate : forall past ups (st : conn), Amid umax kmax vmax fbs defs fresh past ups st ->
  forall v, HeadHeard lim (reads_of (k_client st)) v ->
  match v with
  | VTaken _ _ => True
  | VMore => exists m st2, cl_out (k_client st2) = cl_out (k_client st) /\ k_world st2 = k_world st /\
      forall fuel, (m <= fuel)%nat -> serve fuel st = close_with EndRead st2
  | VPanics => exists m st2, cl_out (k_client st2) = cl_out (k_client st) /\ k_world st2 = k_world st /\
      forall fuel, (m <= fuel)%nat -> serve fuel st = (EndPanic, st2)
  | VRefused named e => exists q, r_proto q = or_default named (r_proto (p_req (k_parser st))) /\
      In e [ErrTooLongRequestLine; ErrBadRequest; ErrMethodNotImplemented; ErrURITooLong; ErrURIDecoding; ErrUnsupportedProtocol; ErrHeaderFieldsTooLarge; ErrTooManyHeaders] /\
      (Detached (on_error (k_world st) q e) -> exists resp w' r' out m st2,
         detached_result (on_error (k_world st) q e) q = Some (resp, w', r') /\
         (forall fuel, (m <= fuel)%nat -> serve fuel st = (EndParse, st2)) /\
         k_world st2 = w' /\ cl_out (k_client st2) = cl_out (k_client st) ++ [out] /\
         SentIn defs past (r_proto r') r' (not_nil resp) [out])
  end.
Proof.
  intros past ups st [HB _] v HV. pose proof (head_follow cfg umax kmax vmax umax_ok _ v HV (k_parser st) (bt_ready _ _ _ _ _ _ _ _ HB)) as O.
  destruct v as [|h rest|named e|]; cbn [Follows] in O; [| exact I | |].
  - destruct O as (p & O). destruct (serve_pending CS cparse max cfg W on_request on_error _ st p eq_refl O) as (m & c1 & K1 & K2).
    exists (S m)%nat, (set_k_parser p (set_k_client c1 st)). split; [exact (proj1 K1)|]. split; [reflexivity|]. intros fuel Hf.
    replace fuel with (S m + (fuel - S m))%nat by lia. apply K2.
  - destruct O as (q & O & Hq). destruct (feed cfg (k_parser st) (reads_of (k_client st))) as [res rs] eqn:EF. cbn [fst] in O. subst res.
    exists (p_req q). split; [exact Hq|]. split; [exact (parse_errors _ _ _ _ _ _ EF)|]. intros HDt.
    destruct (bad_head CS cparse fresh max cfg umax kmax vmax fbs defs defs_distinct W on_request on_error past st q e rs HB HDt EF)
      as (m & resp & w' & r' & out & st2 & D1 & D2 & D3 & D4 & D5).
    exists resp, w', r', out, m, st2. auto.
  - destruct (feed cfg (k_parser st) (reads_of (k_client st))) as [res rs] eqn:EF. cbn [fst] in O. subst res.
    destruct (serve_panic CS cparse max cfg W on_request on_error _ st rs eq_refl EF) as (m & st2 & K1 & K2 & K3).
    exists (S m)%nat, st2. split; [exact (proj1 K1)|]. split; [exact K2|]. intros fuel Hf.
    replace fuel with (S m + (fuel - S m))%nat by lia. apply K3.
Qed.
End Serve.
