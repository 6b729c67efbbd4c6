(* Lemmas: chunked bodies that do not come, during a request. *)
From Verif Require Import M_Base M_Status M_Method M_Proto M_KeyValue M_Query M_Request M_Parser M_Client M_Body
  M_Response M_Serializer M_Suit M_Path M_Radix M_Router S_KeyValue S_Chunk S_Head S_Parser S_Body S_Response S_Split S_Verdict S_Arrive S_Conn S_Routes S_Router S_Serve S_Upgrade S_Talk S_Missing S_Sync S_Ends S_Broken
  L_Base L_Body L_Body2 L_Chunk L_Conn L_Conn2 L_Talk3 L_Missing L_Sync L_Ends.

(* ---- the reference decoder ---- *)
Definition kran (s : kstate) (tr : bool) (u d : bytes) : Prop := kparse (KSize 0 false) u [] = (s, (d, [], None)).
Lemma kparse_app : forall u s acc s1 d v, kparse s u acc = (s1, (d, [], None)) -> kparse s (u ++ v) acc = kparse s1 v d.
Proof.
  induction u as [|c u IH]; intros s acc s1 d v H; cbn [kparse app] in *; [injection H as <- <-; reflexivity|].
  destruct (kstep s c); [apply IH; exact H|discriminate|discriminate].
Qed.
Lemma kparse_acc : forall data s acc, kparse s data acc = let '(s', (chunk, extra, e)) := kparse s data [] in (s', (acc ++ chunk, extra, e)).
Proof.
  induction data as [|c data IH]; intros s acc; cbn [kparse]; [rewrite app_nil_r; reflexivity|].
  destruct (kstep s c) as [s1 out| |].
  - rewrite (IH s1 (acc ++ out)), (IH s1 ([] ++ out)). destruct (kparse s1 data []) as [s' [[ch ex] e]]. cbn [app]. rewrite app_assoc. reflexivity.
  - rewrite app_nil_r. reflexivity.
  - rewrite app_nil_r. reflexivity.
Qed.
(* from every state there is a way to the end, and no byte of data is certain *)
Lemma end_crlf : kaccepts KEndCR CRLF []. Proof. cbn. exists []. split; [reflexivity|]. auto. Qed.
Lemma size_end : kaccepts (KSize 0 false) (B "0" ++ CRLF ++ CRLF) []. Proof. cbn. exists []. split; [reflexivity|]. exists []. split; [reflexivity|]. exists []. split; [reflexivity|]. exists []. split; [reflexivity|]. auto. Qed.
Lemma datacr_end : kaccepts KDataCR (CRLF ++ B "0" ++ CRLF ++ CRLF) []. Proof. do 2 (exists []; split; [reflexivity|]). exact size_end. Qed.
Lemma data_end : forall b n, n <> 0%N -> kaccepts (KData n) (repeat b (N.to_nat n) ++ CRLF ++ B "0" ++ CRLF ++ CRLF) (repeat b (N.to_nat n)).
Proof.
  intros b n Hn. replace n with (N.of_nat (List.length (repeat b (N.to_nat n)))) at 1 by (rewrite repeat_length; lia).
  rewrite <- (app_nil_r (repeat b (N.to_nat n))) at 3. apply kaccepts_data; [|exact datacr_end].
  destruct (N.to_nat n) eqn:E; [lia|discriminate].
Qed.
Definition Free (s : kstate) : Prop := (exists w, kaccepts s w []) \/ exists w1 w2 a b t1 t2, a <> b /\ kaccepts s w1 (a :: t1) /\ kaccepts s w2 (b :: t2).
Lemma data_free : forall n, n <> 0%N -> Free (KData n).
Proof.
  intros n Hn. right. pose proof (data_end "x"%byte n Hn) as H1. pose proof (data_end "y"%byte n Hn) as H2. destruct (N.to_nat n) eqn:E; [lia|]. cbn [repeat] in *.
  eexists _, _, "x"%byte, "y"%byte, _, _. split; [discriminate|]. split; [exact H1|exact H2].
Qed.
Lemma sizelf_free : forall n, Free (KSizeLF n).
Proof.
  intros n. destruct (N.eq_dec n 0) as [->|Hn].
  - left. exists (LF :: CRLF). cbn [kaccepts kstep]. exists []. split; [reflexivity|exact end_crlf].
  - destruct (data_free n Hn) as [(w & H)|(w1 & w2 & a & b & t1 & t2 & N & H1 & H2)].
    + left. exists (LF :: w). cbn [kaccepts kstep]. rewrite (proj2 (N.eqb_neq n 0) Hn). exists []. auto.
    + right. exists (LF :: w1), (LF :: w2), a, b, t1, t2. split; [exact N|]. cbn [kaccepts kstep]. rewrite (proj2 (N.eqb_neq n 0) Hn). split; eexists; (split; [|eassumption]); reflexivity.
Qed.
Lemma state_free : forall s, kvalid s -> Free s.
Proof.
  assert (St : forall s c s', kstep s c = KGo s' [] -> Free s' -> Free s).
  { intros s c s' E [(w & H)|(w1 & w2 & a & b & t1 & t2 & N & H1 & H2)].
    - left. exists (c :: w). cbn [kaccepts]. rewrite E. exists []. auto.
    - right. exists (c :: w1), (c :: w2), a, b, t1, t2. split; [exact N|]. cbn [kaccepts]. rewrite E. split; eexists; (split; [|eassumption]); reflexivity. }
  intros [n seen|n|n| | | |] V.
  - destruct seen; [apply (St _ CR (KSizeLF n)); [reflexivity|apply sizelf_free]|].
    apply (St _ "0"%byte (KSize (16 * n + 0) true)); [reflexivity|]. apply (St _ CR (KSizeLF (16 * n + 0))); [reflexivity|apply sizelf_free].
  - apply sizelf_free.
  - apply data_free. exact V.
  - left. eexists. exact datacr_end.
  - apply (St _ LF (KSize 0 false)); [reflexivity|]. left. eexists. exact size_end.
  - left. eexists. exact end_crlf.
  - left. exists [LF]. cbn. auto.
Qed.
Lemma ran_valid : forall s tr u d, kran s tr u d -> kvalid s /\ forall w t, kaccepts s w t -> kaccepts (KSize 0 false) (u ++ w) (d ++ t).
Proof.
  intros s tr u d H. apply kparse_sound in H; [|exact I]. destruct H as (_ & V & out & E & K). cbn [app] in E. subst out. split; [exact V|exact K].
Qed.
Lemma ran_back : forall s tr u d w t tail more, kran s tr u d -> kaccepts (KSize 0 false) w t -> u ++ more = w ++ tail -> exists w' t', w = u ++ w' /\ t = d ++ t' /\ kaccepts s w' t'.
Proof.
  intros s tr u d w t tail more H A E. destruct (kaccepts_parse u _ _ _ [] _ _ A E) as (s' & ch & ex & e & P & C). unfold kran in H. rewrite H in P. cbn [app] in P. injection P as <- <- <- <-.
  destruct C as [(_ & _ & w' & d' & -> & _ & -> & K)|(C & _)]; [|discriminate C]. exists w', d'. auto.
Qed.
Theorem ref_decoder_honest : DecoderHonest chunked_text kstate ref_parse kfresh kran.
Proof.
  constructor.
  - constructor.
    + intros s tr ->. reflexivity.
    + intros s tr u d data s' chunk extra H P. unfold ref_parse in P. destruct (ran_valid _ _ _ _ H) as [V _]. pose proof (kparse_sound _ _ _ _ _ _ _ V P) as (-> & _).
      exists data. rewrite app_nil_r. split; [reflexivity|]. unfold kran in *. rewrite (kparse_app _ _ _ _ _ _ H), kparse_acc, P. reflexivity.
    + intros s tr u d data s' chunk extra H P. unfold ref_parse in P. destruct (ran_valid _ _ _ _ H) as [V K]. pose proof (kparse_sound _ _ _ _ _ _ _ V P) as (used & out & -> & -> & A & F).
      exists used. split; [reflexivity|]. split; [|exact F]. apply kmeans_chunked, accepts_means; [exact I|]. cbn [app]. apply K. exact A.
  - exact ref_decoder_moves.
  - intros s tr u d H. destruct (ran_valid _ _ _ _ H) as [V K].
    assert (Can : forall w t, kaccepts s w t -> chunked_text tr (u ++ w) (d ++ t)) by (intros w t A; apply kmeans_chunked, accepts_means; [exact I|]; apply K; exact A).
    constructor.
    + destruct (state_free s V) as [(w & A)|(w1 & _ & a & _ & t1 & _ & _ & A & _)]; eexists _, _; apply Can; exact A.
    + intros w t E. apply chunked_accepts in E. destruct (ran_back _ _ _ _ _ _ [] w H E (eq_sym (app_nil_r _))) as (w' & t' & _ & -> & _). eauto.
    + intros x Hx. destruct (Nat.le_gt_cases (List.length x) (List.length d)) as [L|L]; [exact L|exfalso].
      assert (Q : forall t t', d ++ t = x ++ t' -> exists c y, x = d ++ c :: y).
      { intros t t' E. exists (nth (List.length d) x "0"%byte), (skipn (S (List.length d)) x).
        assert (F : firstn (List.length d) x = d).
        { apply (f_equal (firstn (List.length d))) in E. rewrite !firstn_app, firstn_all, Nat.sub_diag, firstn_O, app_nil_r in E.
          replace (List.length d - List.length x)%nat with 0%nat in E by lia. rewrite firstn_O, app_nil_r in E. symmetry; exact E. }
        rewrite <- F at 1. rewrite <- (firstn_skipn (List.length d) x) at 1. f_equal.
        clear - L. revert x L. induction (List.length d) as [|k IH]; intros [|c x] L; cbn [List.length] in L; try lia; [reflexivity|]. cbn [skipn nth]. rewrite <- IH by lia. reflexivity. }
      destruct (state_free s V) as [(w & A)|(w1 & w2 & a & b & t1 & t2 & N & A1 & A2)].
      * destruct (Hx _ _ (Can _ _ A)) as (t' & E). rewrite app_nil_r in E. apply (f_equal (@List.length byte)) in E. rewrite app_length in E. lia.
      * destruct (Hx _ _ (Can _ _ A1)) as (t1' & E1). destruct (Hx _ _ (Can _ _ A2)) as (t2' & E2). destruct (Q _ _ E1) as (c & y & ->).
        rewrite <- app_assoc in E1, E2. apply app_inv_head in E1, E2. injection E1 as E1 _. injection E2 as E2 _. congruence.
  - intros s tr u d data s' chunk extra H P more w t tail E Eq. apply chunked_accepts in E.
    destruct (kaccepts_parse (u ++ data) _ _ _ [] _ _ E Eq) as (s2 & ch & ex & e & P2 & C). unfold kran in H. rewrite (kparse_app _ _ _ _ _ _ H), kparse_acc in P2.
    unfold ref_parse in P. rewrite P in P2. injection P2 as _ _ _ <-. destruct C as [(C & _)|(C & _)]; discriminate C.
Qed.

Section View.
Variable encoded : bool -> bytes -> bytes -> Prop.
Variable CS : Type.
Variable cparse : CS -> bytes -> bool -> CS * (bytes * bytes * option cerr).
Variable fresh : CS -> Prop.
Variable begun : CS -> bool -> bytes -> bytes -> Prop.
Hypothesis honest : DecoderHonest encoded CS cparse fresh begun.
Variable max : Z.
Hypothesis max_ok : (0 <= max < two64)%Z.
Variable tr : bool.
Variable rest : bytes.
Variable hung : bool.
Hypothesis breaks : forall w t v, rest = w ++ v -> encoded tr w t -> (max < len t)%Z.
Notation retrieve := (retrieve cparse max).
Notation CPiece := (CPiece encoded max tr rest hung).
Notation CPieces := (CPieces encoded max tr rest hung).
Notation CAnswer := (CAnswer encoded max tr rest hung).
Notation All_of := (All_of encoded max tr rest).
Notation at_fault := (at_fault encoded max tr rest).

Definition CInv (b : body CS) (c : client) (s : cstate) : Prop :=
  bd_chunked b = true /\
  match s with
  | Going g => bd_eof b = false /\ bd_trailer b = tr /\ Gone hung (cl_net c) /\ (len g <= max)%Z /\ bd_received b = len g /\
               exists u, rest = u ++ stream c /\ begun (bd_cs b) tr u g
  | Refused => True
  | Over => bd_eof b = true /\ reads_of c = []
  end.
Lemma fault_not_eof : forall e, at_fault e -> e <> BEof /\ e <> BNet.
Proof. intros e [[-> _]|[-> _]]; split; discriminate. Qed.
Lemma cpiece_ok : forall b c s d e b' c', CInv b c s -> retrieve b c = ((d, e), b', c') ->
  exists s', CPiece s d e s' /\ CInv b' c' s' /\ bd_full b' = bd_full b /\ bd_pending b' = bd_pending b /\ bd_error b' = bd_error b.
Proof.
  intros b c s d e b' c' (H0 & HI) H. unfold M_Body.retrieve in H. rewrite H0 in H. destruct s as [g| |].
  - destruct HI as (H1 & H2 & H3 & H4 & H5 & u & H6 & H7). rewrite H1 in H. unfold chunked_read in H.
    destruct (gone_read hung c H3) as (x & ne & c1 & R & Rp & K). rewrite R in H. destruct ne as [[|]|].
    + destruct K as (K1 & K2 & K3). injection H as <- <- <- <-. exists Over. split; [|split; [split; [exact H0|split; [reflexivity|exact K3]]|cbn; auto]].
      apply Cp_hung; [exact K1|]. split; [exact H4|]. rewrite K2, app_nil_r in H6. subst u. exact (dh_data _ _ _ _ _ honest _ _ _ _ H7).
    + destruct K as (K1 & K2 & K3 & K4). injection H as <- <- <- <-. exists (Going g). split; [|split; [|cbn; auto]].
      * apply Cp_broken; [exact K1|]. split; [exact H4|]. rewrite K2, app_nil_r in H6. subst u. exact (dh_data _ _ _ _ _ honest _ _ _ _ H7).
      * cbn [berr_eof snd of_neterr]. split; [exact H0|]. rewrite K2, <- K3 in H6. split; [exact H1|]. split; [exact H2|]. split; [exact K4|]. split; [exact H4|]. split; [exact H5|]. exists u. auto.
    + destruct K as (K1 & K2 & K3). destruct (cparse (bd_cs b) x (bd_trailer b)) as [cs' [[chunk extra] ce]] eqn:P. rewrite H2 in P.
      assert (Er : rest = (u ++ x) ++ stream c1) by (rewrite H6, K1; apply app_assoc).
      assert (Ov : ((two64 - 1 - bd_received b <? len chunk)%Z || (bd_received b + len chunk >? max)%Z) = true -> (max < len (g ++ chunk))%Z).
      { intros E. rewrite len_app, <- H5. apply Bool.orb_true_iff in E. destruct E as [E|E]; [apply Z.ltb_lt in E; lia|rewrite Z.gtb_ltb in E; apply Z.ltb_lt in E; exact E]. }
      destruct ce as [[|]|].
      * destruct (ds_end _ _ _ _ _ (dh_sound _ _ _ _ _ honest) _ _ _ _ _ _ _ _ H7 P) as (used & -> & En & Fr).
        assert (Rr : rest = (u ++ used) ++ (extra ++ stream c1)) by (rewrite Er; rewrite <- !app_assoc; reflexivity).
        pose proof (breaks _ _ _ Rr En) as Lg.
        destruct (_ || _) eqn:Eo; injection H as <- <- <- <-.
        -- exists Refused. split; [|split; [split; [exact H0|exact I]|cbn; auto]]. apply Cp_fault. left. split; [reflexivity|]. exists (u ++ used), (extra ++ stream c1), (g ++ chunk). auto.
        -- exfalso. apply Bool.orb_false_elim in Eo. destruct Eo as [_ Eo]. rewrite Z.gtb_ltb in Eo. apply Z.ltb_ge in Eo. rewrite len_app in Lg. lia.
      * injection H as <- <- <- <-. exists Refused. split; [|split; [split; [exact H0|exact I]|cbn; auto]]. apply Cp_fault. right. split; [reflexivity|].
        intros more w t tail En Eq. apply (dh_error _ _ _ _ _ honest _ _ _ _ _ _ _ _ H7 P (stream c1 ++ more) w t tail En). rewrite <- Eq, Er, <- !app_assoc. reflexivity.
      * destruct (ds_more _ _ _ _ _ (dh_sound _ _ _ _ _ honest) _ _ _ _ _ _ _ _ H7 P) as (used & -> & Hb).
        assert (Rr : rest = (u ++ used) ++ (extra ++ stream c1)) by (rewrite Er; rewrite <- !app_assoc; reflexivity).
        pose proof (dh_data _ _ _ _ _ honest _ _ _ _ Hb) as Hd.
        destruct (_ || _) eqn:Eo; injection H as <- <- <- <-.
        -- exists Refused. split; [|split; [split; [exact H0|exact I]|cbn; auto]]. apply Cp_fault. left. split; [reflexivity|]. exists (u ++ used), (extra ++ stream c1), (g ++ chunk). auto.
        -- apply Bool.orb_false_elim in Eo. destruct Eo as [_ Eo]. rewrite Z.gtb_ltb in Eo. apply Z.ltb_ge in Eo.
           exists (Going (g ++ chunk)). split; [|split; [|cbn; auto]].
           ++ apply Cp_more. split; [rewrite len_app; lia|]. eexists _, _. split; [exact Rr|exact Hd].
           ++ cbn [berr_eof snd]. split; [exact H0|]. cbn [set_received set_cs bd_eof bd_trailer bd_received bd_cs]. split; [exact H1|]. split; [exact H2|]. split; [exact K3|].
              rewrite len_app. split; [lia|]. split; [lia|]. exists (u ++ used). split; [|exact Hb]. rewrite stream_unread by exact Rp. exact Rr.
  - exists Refused. split; [apply Cp_after|]. destruct (bd_eof b); [injection H as <- <- <- <-; split; [split; [exact H0|exact I]|auto]|].
    destruct (chunked_read cparse max b c) as [[y b1] c1] eqn:E. injection H as -> <- <-.
    assert (Q : bd_chunked b1 = true /\ bd_full b1 = bd_full b /\ bd_pending b1 = bd_pending b /\ bd_error b1 = bd_error b).
    { unfold chunked_read in E. destruct (client_read c) as [[x ne] c2]. destruct ne as [ne|]; [injection E as <- <- <- <-; auto|].
      destruct (cparse (bd_cs b) x (bd_trailer b)) as [cs' [[chunk extra] ce]]. destruct ce as [[|]|]; [destruct (_ || _)| |destruct (_ || _)]; injection E as <- <- <- <-; cbn; auto. }
    destruct Q as (Q1 & Q2 & Q3 & Q4). destruct (berr_eof _); (split; [split; [exact Q1|exact I]|auto]).
  - destruct HI as [H1 H2]. rewrite H1 in H. injection H as <- <- <- <-. exists Over. split; [apply Cp_over|]. split; [split; auto|auto].
Qed.

Record CRep (b : body CS) (c : client) (v : cview) : Prop := {
  cr_where : CInv b c (c_state v);
  cr_stash : bd_pending b = c_stash v;
  cr_error : bd_error b = c_note v;
  cr_whole : forall d, c_whole v = Some d -> c_state v = Over /\ bd_full b = d
}.
Lemma piece_over : forall d e s', CPiece Over d e s' -> s' = Over. Proof. intros d e s' H. inversion H; reflexivity. Qed.
Lemma cpieces_ok : forall n b c s cb seen all res b' c', CInv b c s -> callback_loop cparse max n cb seen b c = (all, res, b', c') -> res <> Some None ->
  exists s', CPieces cb seen s all res s' /\ CInv b' c' s' /\ bd_full b' = bd_full b /\ bd_pending b' = bd_pending b /\ bd_error b' = bd_error b /\ (s = Over -> s' = Over).
Proof.
  induction n as [|n IH]; intros b c s cb seen all res b' c' HI H N; cbn [callback_loop] in H; [injection H as <- <- <- <-; congruence|].
  destruct (retrieve b c) as [[[d e] b1] c1] eqn:R. destruct (cpiece_ok _ _ _ _ _ _ _ HI R) as (s1 & P & I1 & F1 & F2 & F3).
  assert (Ov : s = Over -> s1 = Over) by (intros ->; eapply piece_over; exact P).
  destruct e as [e|].
  - destruct e as [| | |] eqn:Ee.
    + destruct (cb (seen ++ [d])) eqn:Ec; injection H as <- <- <- <-; exists s1; (split; [|auto 10]).
      * eapply Cs_done; eassumption.
      * eapply Cs_refused; eauto.
    + injection H as <- <- <- <-. exists s1. split; [eapply Cs_failed; [exact P|discriminate]|auto 10].
    + injection H as <- <- <- <-. exists s1. split; [eapply Cs_failed; [exact P|discriminate]|auto 10].
    + injection H as <- <- <- <-. exists s1. split; [eapply Cs_failed; [exact P|discriminate]|auto 10].
  - destruct (cb (seen ++ [d])) eqn:Ec.
    + destruct (IH _ _ _ _ _ _ _ _ _ I1 H N) as (s2 & P2 & I2 & G1 & G2 & G3 & O2). exists s2. split; [eapply Cs_more; eassumption|]. split; [exact I2|].
      split; [congruence|]. split; [congruence|]. split; [congruence|auto].
    + injection H as <- <- <- <-. exists s1. split; [eapply Cs_refused; eauto|auto 10].
Qed.
Lemma cbytes_ok : forall n b c g x b' c', CInv b c (Going g) -> bytes_loop cparse max n b c = (x, b', c') -> x <> BRStuck ->
  bd_pending b' = bd_pending b /\ bd_error b' = bd_error b /\
  ((exists l, hung = true /\ All_of (g ++ l) /\ x = BROk (bd_full b ++ l) /\ bd_full b' = bd_full b ++ l /\ CInv b' c' Over) \/
   (exists l, hung = false /\ All_of (g ++ l) /\ x = BRErr BNet /\ CInv b' c' (Going (g ++ l))) \/
   (exists e, at_fault e /\ x = BRErr e /\ CInv b' c' Refused)).
Proof.
  induction n as [|n IH]; intros b c g x b' c' HI H N; cbn [bytes_loop] in H; [injection H as <- <- <-; congruence|].
  destruct (retrieve b c) as [[[d e] b1] c1] eqn:R. destruct (cpiece_ok _ _ _ _ _ _ _ HI R) as (s1 & P & I1 & F1 & F2 & F3).
  inversion P as [g0 d0 Hs| g0 Hh Ha| g0 Hh Ha|g0 e0 He| |]; subst.
  - destruct (IH (set_full (bd_full b1 ++ d) (Z.max (bd_cap b1) (len (bd_full b1 ++ d))) b1) _ _ _ _ _ I1 H N) as (G1 & G2 & G3). cbn [set_full bd_pending bd_error] in G1, G2. split; [congruence|]. split; [congruence|]. cbn [set_full bd_full] in G3. rewrite F1 in G3.
    destruct G3 as [(l & A1 & A2 & A3 & A4 & A5)|[(l & A1 & A2 & A3 & A4)|A]]; [left|right; left|right; right; exact A].
    + exists (d ++ l). rewrite app_assoc. rewrite <- app_assoc in A3, A4. auto.
    + exists (d ++ l). rewrite app_assoc. auto.
  - injection H as <- <- <-. split; [exact F2|]. split; [exact F3|]. right; left. exists []. rewrite app_nil_r. auto.
  - injection H as <- <- <-. split; [exact F2|]. split; [exact F3|]. left. exists []. cbn [set_full bd_full]. rewrite F1, !app_nil_r. auto.
  - assert (X : (BRErr e0, set_full (bd_full b1 ++ []) (Z.max (bd_cap b1) (len (bd_full b1 ++ []))) b1, c1) = (x, b', c')).
    { rewrite <- H. destruct (fault_not_eof _ He) as [E1 E2]. destruct e0; congruence. }
    injection X as <- <- <-. split; [exact F2|]. split; [exact F3|]. right; right. exists e0. auto.
Qed.
Lemma cdiscard_ok : forall n b c g x b' c', CInv b c (Going g) -> discard_loop cparse max n b c = (Some x, b', c') ->
  bd_pending b' = bd_pending b /\ bd_error b' = bd_error b /\ bd_full b' = bd_full b /\
  ((hung = true /\ x = None /\ CInv b' c' Over) \/
   (exists l, hung = false /\ All_of (g ++ l) /\ x = Some BNet /\ CInv b' c' (Going (g ++ l))) \/
   (exists e, at_fault e /\ x = Some e /\ CInv b' c' Refused)).
Proof.
  induction n as [|n IH]; intros b c g x b' c' HI H; cbn [discard_loop] in H; [discriminate|].
  pose proof HI as (_ & E0 & _). rewrite E0 in H.
  destruct (retrieve b c) as [[[d e] b1] c1] eqn:R. destruct (cpiece_ok _ _ _ _ _ _ _ HI R) as (s1 & P & I1 & F1 & F2 & F3).
  inversion P as [g0 d0 Hs| g0 Hh Ha| g0 Hh Ha|g0 e0 He| |]; subst.
  - destruct (IH _ _ _ _ _ _ I1 H) as (G1 & G2 & G0 & G3). split; [congruence|]. split; [congruence|]. split; [congruence|].
    destruct G3 as [A|[(l & A1 & A2 & A3 & A4)|A]]; [left; exact A|right; left|right; right; exact A].
    exists (d ++ l). rewrite app_assoc. auto.
  - injection H as <- <- <-. repeat (split; [assumption|]). right; left. exists []. rewrite app_nil_r. auto.
  - injection H as <- <- <-. repeat (split; [assumption|]). left. auto.
  - assert (X : (Some (Some e0), b1, c1) = (Some x, b', c')).
    { rewrite <- H. destruct (fault_not_eof _ He) as [E1 E2]. destruct e0; congruence. }
    injection X as <- <- <-. repeat (split; [assumption|]). right; right. exists e0. auto.
Qed.
(* after an error about the body *)
Lemma refused_kept : forall op (b : body CS) c o b' c', bd_chunked b = true -> body_op cparse max op b c = (o, b', c') -> op = OBytes \/ op = ODiscard ->
  bd_chunked b' = true /\ bd_pending b' = bd_pending b /\ bd_error b' = bd_error b /\ stops o <> Some true.
Proof.
  assert (Rt : forall (b : body CS) c d e b' c', bd_chunked b = true -> retrieve b c = ((d, e), b', c') -> bd_chunked b' = true /\ bd_pending b' = bd_pending b /\ bd_error b' = bd_error b).
  { intros b c d e b' c' H0 R. destruct (cpiece_ok b c Refused _ _ _ _ (conj H0 I) R) as (s1 & P & I1 & F1 & F2 & F3). inversion P; subst. destruct I1. auto. }
  assert (Bl : forall n (b : body CS) c x b' c', bd_chunked b = true -> bytes_loop cparse max n b c = (x, b', c') -> bd_chunked b' = true /\ bd_pending b' = bd_pending b /\ bd_error b' = bd_error b /\ x <> BRPanic).
  { induction n as [|n IH]; intros b c x b' c' H0 H; cbn [bytes_loop] in H; [injection H as <- <- <-; repeat split; auto; discriminate|].
    destruct (retrieve b c) as [[[d e] b1] c1] eqn:R. destruct (Rt _ _ _ _ _ _ H0 R) as (A1 & A2 & A3).
    destruct e as [[]|]; try (injection H as <- <- <-; cbn; repeat split; auto; discriminate). destruct (IH (set_full (bd_full b1 ++ d) (Z.max (bd_cap b1) (len (bd_full b1 ++ d))) b1) _ _ _ _ A1 H) as (B1 & B2 & B3 & B4). cbn in B2, B3. repeat split; congruence. }
  assert (Dl : forall n (b : body CS) c x b' c', bd_chunked b = true -> discard_loop cparse max n b c = (x, b', c') -> bd_chunked b' = true /\ bd_pending b' = bd_pending b /\ bd_error b' = bd_error b).
  { induction n as [|n IH]; intros b c x b' c' H0 H; cbn [discard_loop] in H; [injection H as <- <- <-; auto|]. destruct (bd_eof b); [injection H as <- <- <-; auto|].
    destruct (retrieve b c) as [[[d e] b1] c1] eqn:R. destruct (Rt _ _ _ _ _ _ H0 R) as (A1 & A2 & A3).
    destruct e as [[]|]; try (injection H as <- <- <-; auto). destruct (IH _ _ _ _ _ A1 H) as (B1 & B2 & B3). repeat split; congruence. }
  intros op b c o b' c' H0 H [->| ->]; cbn [body_op] in H.
  - unfold body_bytes in H. rewrite H0 in H. cbn [negb andb] in H. destruct (bd_eof b); [injection H as <- <- <-; cbn; repeat split; auto; discriminate|].
    destruct (bytes_loop cparse max _ _ c) as [[x b1] c1] eqn:E. injection H as <- <- <-. destruct (Bl _ (set_full [] (bd_cap b) b) _ _ _ _ H0 E) as (A1 & A2 & A3 & A4).
    repeat split; auto. destruct x; cbn; congruence.
  - destruct (body_discard cparse max b c) as [[x b1] c1] eqn:E. injection H as <- <- <-. destruct (Dl _ _ _ _ _ _ H0 E) as (A1 & A2 & A3). repeat split; auto. destruct x; cbn; discriminate.
Qed.
Lemma canswer_ok : forall op b c v, CRep b c v -> exists o b' c' v',
  body_op cparse max op b c = (o, b', c') /\ CAnswer v op o v' /\ CRep b' c' v' /\ stops o = None.
Proof.
  intros op b c [s st note wh] HR. destruct (op_ends CS cparse (dh_moves _ _ _ _ _ honest) max op b c) as (o & b' & c' & Ho & Hs & _).
  pose proof HR as [H1 H2 H3 H4]. cbn [c_state c_stash c_note c_whole] in *.
  exists o, b', c'. cut (exists v', CAnswer (CView s st note wh) op o v' /\ CRep b' c' v' /\ stops o <> Some true).
  { intros (v' & A1 & A2 & A3). exists v'. split; [exact Ho|]. split; [exact A1|]. split; [exact A2|]. destruct (stops o) as [[|]|]; congruence. }
  assert (Rf : s = Refused -> op = OBytes \/ op = ODiscard -> exists v', CAnswer (CView s st note wh) op o v' /\ CRep b' c' v' /\ stops o <> Some true).
  { intros -> Op. destruct (refused_kept op b c o b' c' (proj1 H1) Ho Op) as (A1 & A2 & A3 & A4). exists (CView Refused st note None). split; [|split; [|exact A4]].
    - apply Ca_after; [|exact Op]. destruct (stops o) as [[|]|]; congruence.
    - constructor; cbn; try congruence. split; [exact A1|exact I]. }
  destruct op; cbn [body_op] in Ho.
  - destruct s as [g| |]; [|apply Rf; auto|].
    + pose proof H1 as (I0 & I1 & _). unfold body_bytes in Ho. rewrite I1, I0 in Ho. cbn [negb andb] in Ho.
      destruct (bytes_loop cparse max _ _ c) as [[x b1] c1] eqn:E. injection Ho as <- <- <-.
      assert (Nx : x <> BRStuck) by (intros ->; apply Hs; reflexivity).
      destruct (cbytes_ok _ (set_full [] (bd_cap b) b) _ g _ _ _ H1 E Nx) as (G1 & G2 & [(l & A1 & A2 & -> & A4 & A5)|[(l & A1 & A2 & -> & A4)|(e & A1 & -> & A3)]]); cbn [set_full bd_full bd_pending bd_error app] in *.
      * exists (CView Over st note (Some l)). split; [apply Ca_bytes; auto|]. split; [|discriminate]. constructor; cbn; try congruence; auto. intros d Ed. injection Ed as <-. auto.
      * exists (CView (Going (g ++ l)) st note None). split; [apply Ca_broken; auto|]. split; [|discriminate]. constructor; cbn; try congruence; auto.
      * exists (CView Refused st note None). split; [apply Ca_fault; auto|]. split; [|discriminate]. constructor; cbn; try congruence; auto.
    + pose proof H1 as (I0 & I1 & I2). unfold body_bytes in Ho. rewrite I1 in Ho. injection Ho as <- <- <-. destruct wh as [d|].
      * destruct (H4 d eq_refl) as [_ ->]. eexists. split; [apply Ca_again|]. split; [|discriminate]. constructor; cbn; auto.
      * eexists. split; [apply Ca_stale|]. split; [|discriminate]. constructor; cbn; auto.
  - destruct (retrieve b c) as [[[d e] b1] c1] eqn:R. injection Ho as <- <- <-. destruct (cpiece_ok _ _ _ _ _ _ _ H1 R) as (s1 & P & I1 & F1 & F2 & F3).
    exists (CView s1 st note wh). split; [apply Ca_retrieve; exact P|]. split; [|discriminate]. constructor; cbn; try congruence; auto.
    intros x Ex. destruct (H4 x Ex) as [-> Fx]. split; [eapply piece_over; exact P|congruence].
  - destruct (body_read cparse max n b c) as [[[d e] b1] c1] eqn:R. injection Ho as <- <- <-. unfold body_read in R.
    destruct (bd_pending b) as [|x p] eqn:Ep; [destruct (bd_error b) as [er|] eqn:Ee|].
    + rewrite Ep, Ee in R. subst st note. rewrite firstn_nil, skipn_nil in R. injection R as <- <- <- <-. exists (CView s [] (Some er) wh). split.
      * assert (Ne : @nil byte <> [] \/ Some er <> None) by (right; discriminate). pose proof (Ca_read_held encoded max tr rest hung s [] (Some er) wh n Ne) as K. rewrite firstn_nil, skipn_nil in K. exact K.
      * split; [|discriminate]. constructor; cbn; auto.
    + subst st note. destruct (retrieve b c) as [[[d0 e0] b2] c2] eqn:R0. destruct (cpiece_ok _ _ _ _ _ _ _ H1 R0) as (s1 & P & I1 & F1 & F2 & F3).
      cbn [set_stash bd_pending bd_error] in R. injection R as <- <- <- <-. exists (CView s1 (skipn n d0) e0 wh). split; [apply Ca_read; exact P|]. split; [|discriminate].
      constructor; cbn; auto. intros x Ex. destruct (H4 x Ex) as [-> Fx]. split; [eapply piece_over; exact P|congruence].
    + rewrite Ep, H3 in R. subst st. injection R as <- <- <- <-. exists (CView s (skipn n (x :: p)) note wh). split; [apply Ca_read_held; left; discriminate|]. split; [|discriminate].
      constructor; cbn [set_stash bd_pending bd_error bd_full c_state c_stash c_note c_whole]; auto.
  - destruct (body_callback cparse max cb b c) as [[[ps x] b1] c1] eqn:R. injection Ho as <- <- <-. unfold body_callback in R.
    assert (Nx : x <> Some None) by (intros ->; apply Hs; reflexivity).
    destruct (cpieces_ok _ _ _ _ _ _ _ _ _ _ H1 R Nx) as (s1 & P & I1 & F1 & F2 & F3 & Ov).
    exists (CView s1 st note wh). split; [apply Ca_callback; exact P|]. split; [|destruct x as [[]|]; cbn; discriminate]. constructor; cbn; try congruence; auto.
    intros y Ey. destruct (H4 y Ey) as [E Fy]. split; [auto|congruence].
  - destruct (body_discard cparse max b c) as [[x b1] c1] eqn:R. destruct s as [g| |]; [|apply Rf; auto|].
    + injection Ho as <- <- <-. destruct x as [x|]; [|cbn in Hs; congruence]. unfold body_discard in R.
      assert (Hw : wh = None). { destruct wh as [y|]; [|reflexivity]. destruct (H4 y eq_refl) as [K0 _]. discriminate K0. } subst wh.
      destruct (cdiscard_ok _ _ _ g _ _ _ H1 R) as (G1 & G2 & G3 & [(A1 & -> & A3)|[(l & A1 & A2 & -> & A4)|(e & A1 & -> & A3)]]).
      * exists (CView Over st note None). split; [apply Ca_discard; [left; exact A1|discriminate]|]. split; [|discriminate]. constructor; cbn; try congruence; auto.
      * exists (CView (Going (g ++ l)) st note None). split; [apply Ca_discard_broken; auto|]. split; [|discriminate]. constructor; cbn; try congruence; auto.
      * exists (CView Refused st note None). split; [apply Ca_discard_fault; auto|]. split; [|discriminate]. constructor; cbn; try congruence; auto.
    + injection Ho as <- <- <-. pose proof H1 as (I0 & I1 & I2). unfold body_discard, loop_fuel in R. cbn [discard_loop] in R. rewrite I1 in R. injection R as <- <- <-.
      exists (CView Over st note wh). split; [apply Ca_discard; [right; reflexivity|discriminate]|]. split; [|discriminate]. constructor; cbn; auto.
Qed.

Lemma ctame_ok : forall W ok panics (h : hprog W), Tame ok panics h -> forall r b c v, CRep b c v -> r_hijacked r = false -> QueryFresh (r_query r) ->
  exists o r' b' c' v', ended CS (run_handler cparse max h r b c) o r' b' c' /\ allowed ok panics o /\
    HGoes CAnswer h r v o r' v' /\ CRep b' c' v' /\ kept c c' /\
    r_hijacked r' = false /\ r_upgrade r' = r_upgrade r /\ QueryFresh (r_query r').
Proof.
  intros W ok panics h Ho.
  induction Ho as [ok panics resp w Hs|ok|ok panics op k Hk IH|ok panics g k Hg Hk IH|ok panics k Hk IH|ok mid panics p q k Hp IHp Hq IHq Hk IHk]; intros r b c v HR Hj Hq0; cbn [run_handler].
  - exists (Returns resp w), r, b, c, v. split; [reflexivity|]. split; [exact Hs|]. split; [apply HG_ret|]. split; [exact HR|]. split; [apply kept_refl|]. auto.
  - exists Panics, r, b, c, v. split; [reflexivity|]. split; [reflexivity|]. split; [apply HG_crash|]. split; [exact HR|]. split; [apply kept_refl|]. auto.
  - destruct (canswer_ok op b c v HR) as (x & b1 & c1 & v1 & H1 & H2 & H3 & H4).
    destruct (IH x r b1 c1 v1 H3 Hj Hq0) as (o & r' & b' & c' & v' & K1 & K2 & K3 & K4 & K5 & K6).
    exists o, r', b', c', v'. rewrite H1, H4. split; [exact K1|]. split; [exact K2|]. split; [eapply HG_body; [eassumption|intros ->; discriminate H4|eassumption]|]. split; [exact K4|]. split; [|exact K6].
    eapply kept_trans; [|exact K5]. eapply op_kept. exact H1.
  - destruct (Hg r) as (G1 & G2 & G3).
    destruct (IH (g r) b c v HR) as (o & r' & b' & c' & v' & K1 & K2 & K3 & K4 & K5 & K6 & K7 & K8); [congruence|auto|].
    exists o, r', b', c', v'. split; [exact K1|]. split; [exact K2|]. split; [apply HG_update; exact K3|]. split; [exact K4|]. split; [exact K5|].
    repeat split; auto; congruence.
  - destruct (IH r r b c v HR Hj Hq0) as (o & r' & b' & c' & v' & K1 & K2 & K3 & K4). exists o, r', b', c', v'.
    split; [exact K1|]. split; [exact K2|]. split; [apply HG_look; exact K3|]. exact K4.
  - destruct (IHp r b c v HR Hj Hq0) as (o1 & r1 & b1 & c1 & v1 & K1 & K2 & K3 & K4 & K5 & K6 & K7 & K8).
    destruct o1 as [resp w|]; cbn [ended allowed] in K1, K2; rewrite K1.
    + destruct (IHk resp w K2 r1 b1 c1 v1 K4 K6 K8) as (o & r' & b' & c' & v' & L1 & L2 & L3 & L4 & L5 & L6 & L7 & L8).
      exists o, r', b', c', v'. split; [exact L1|]. split; [exact L2|]. split; [eapply HG_try; eassumption|]. split; [exact L4|].
      split; [eapply kept_trans; eassumption|]. repeat split; auto; congruence.
    + destruct (IHq r1 b1 c1 v1 K4 K6 K8) as (o2 & r2 & b2 & c2 & v2 & M1 & M2 & M3 & M4 & M5 & M6 & M7 & M8).
      destruct o2 as [resp w|]; cbn [ended allowed] in M1, M2; rewrite M1.
      * destruct (IHk resp w M2 r2 b2 c2 v2 M4 M6 M8) as (o & r' & b' & c' & v' & L1 & L2 & L3 & L4 & L5 & L6 & L7 & L8).
        exists o, r', b', c', v'. split; [exact L1|]. split; [exact L2|]. split; [eapply HG_recover; eassumption|]. split; [exact L4|].
        split; [eapply kept_trans; [exact K5|]; eapply kept_trans; eassumption|]. repeat split; auto; congruence.
      * exists Panics, r2, b2, c2, v2. split; [reflexivity|]. split; [exact M2|]. split; [eapply HG_again; eassumption|]. split; [exact M4|].
        split; [eapply kept_trans; eassumption|]. repeat split; auto; congruence.
Qed.
Lemma crep_moved : forall b c c' v, same_input c c' -> CRep b c v -> CRep b c' v.
Proof.
  intros b c c' v [E1 E2] [H1 H2 H3 H4]. constructor; auto. destruct H1 as [A B]. split; [exact A|]. destruct (c_state v) as [g| |]; [|exact I|].
  - unfold stream in *. rewrite E1, E2. exact B.
  - unfold reads_of in *. rewrite E1, E2. exact B.
Qed.
End View.
