From Verif Require Import M_Base M_Status M_Method M_Proto M_KeyValue M_Query M_Request M_Parser M_Client M_Body
  M_Response M_Serializer M_Suit M_Mem M_MemSuit S_Body S_Mem S_MemSuit L_Base L_Body L_Body3 L_Mem.

Local Arguments net_size : simpl never.
Local Arguments client_unread : simpl never.
Local Arguments write_response : simpl never.
Local Arguments pre_write : simpl never.
Local Arguments resp_header : simpl never.

(* ---- writing does not look at the input ---- *)
Definition over_input (n : list (bytes * option neterr)) (q : bytes) (c : client) : client := Client n q (cl_out c) (cl_wres c).
Lemma write_frame : forall n q c d, client_write (over_input n q c) d = (let '(ok, c') := client_write c d in (ok, over_input n q c')).
Proof. intros n q [net p out w] d. unfold client_write, over_input. cbn. destruct w as [|[k|] w]; reflexivity. Qed.
Lemma plain_frame : forall n q ev mem c, write_plain ev mem (over_input n q c) =
  (let '(w, m, c', ev') := write_plain ev mem c in (w, m, over_input n q c', ev')).
Proof.
  intros n q. induction ev as [|[d e] ev IH]; intros mem c; cbn [write_plain]; [reflexivity|].
  destruct e as [[|]|]; try reflexivity. destruct (_ <? _)%nat; [reflexivity|]. rewrite write_frame.
  destruct (client_write c _) as [ok c1]. destruct ok; [apply IH|reflexivity].
Qed.
Lemma chunked_frame : forall n q ev mem c, write_chunked ev mem (over_input n q c) =
  (let '(w, m, c', ev') := write_chunked ev mem c in (w, m, over_input n q c', ev')).
Proof.
  intros n q. induction ev as [|[d e] ev IH]; intros mem c; cbn [write_chunked]; [reflexivity|].
  assert (Aft : forall mm cc, match e with None => write_chunked ev mm (over_input n q cc)
                   | Some REof => let '(ok, c) := client_write (over_input n q cc) chunked_finalizer in ((if ok then WOk else WNet), mm, c, ev)
                   | Some RFail => (WClose, mm, over_input n q cc, ev) end =
    (let '(w, m, c', ev') := match e with None => write_chunked ev mm cc
                   | Some REof => let '(ok, c) := client_write cc chunked_finalizer in ((if ok then WOk else WNet), mm, c, ev)
                   | Some RFail => (WClose, mm, cc, ev) end in (w, m, over_input n q c', ev'))).
  { intros mm cc. destruct e as [[|]|]; [|reflexivity|apply IH]. rewrite write_frame. destruct (client_write cc _) as [ok c1]. destruct ok; reflexivity. }
  destruct (0 <? List.length d)%nat; [|apply Aft].
  destruct (_ <? _)%nat; [reflexivity|]. destruct (_ <? _)%nat; [reflexivity|].
  rewrite write_frame. destruct (client_write c _) as [ok c1]. destruct ok; [apply Aft|reflexivity].
Qed.
Lemma response_frame : forall n q p r f s c, write_response p r f s (over_input n q c) =
  (let '(res, s', c', x) := write_response p r f s c in (res, s', over_input n q c', x)).
Proof.
  intros n q p r f s c. unfold write_response. destruct (f_att f) as [a|].
  - unfold send_attachment. cbv zeta. rewrite write_frame.
    match goal with |- context [client_write c ?d] => destruct (client_write c d) as [ok c2] end. destruct ok; cbn [negb]; [|reflexivity].
    destruct (method_eqb (r_method r) HEAD); [reflexivity|]. destruct (0 <? at_size a)%Z.
    + rewrite plain_frame. match goal with |- context [write_plain ?x ?y ?z] => destruct (write_plain x y z) as [[[w2 m2] c3] ev3] end.
      destruct w2; reflexivity.
    + rewrite chunked_frame. match goal with |- context [write_chunked ?x ?y ?z] => destruct (write_chunked x y z) as [[[w2 m2] c3] ev3] end.
      destruct w2; reflexivity.
  - rewrite write_frame. match goal with |- context [client_write c ?d] => destruct (client_write c d) as [ok c2] end.
    first [reflexivity | destruct ok; reflexivity].
Qed.

(* ---- what the parser leaves is the end of what it got ---- *)
Lemma cut_app : forall data c a b, cut data c = Some (a, b) -> data = a ++ c :: b.
Proof.
  induction data as [|x data IH]; intros c a b H; [discriminate|]. cbn in H. destruct (Byte.eqb x c) eqn:E.
  - injection H as <- <-. apply Byte.byte_dec_bl in E. subst. reflexivity.
  - destruct (cut data c) as [[a2 b2]|] eqn:E2; [|discriminate]. injection H as <- <-. cbn. f_equal. auto.
Qed.
Lemma clen_app : forall data n n' d, clen_loop n data = (n', Some d) -> exists u, data = u ++ d.
Proof.
  induction data as [|x data IH]; intros n n' d H; cbn in H; [discriminate|].
  destruct (Byte.eqb x SP); [apply IH in H as [u ->]; exists (x :: u); reflexivity|].
  destruct (is_digit x); [apply IH in H as [u ->]; exists (x :: u); reflexivity|]. injection H as <- <-. exists []. reflexivity.
Qed.
Lemma step_tail : forall cfg l p data, match step cfg l p data with
  | Goto _ _ d | Ret (RDone _ d) => exists u, data = u ++ d | _ => True end.
Proof.
  intros cfg l p data. destruct l; cbn [step].
  - unfold step_method. destruct (cut data SP) as [[m rest]|] eqn:E; [|destruct (buf_append _ _); exact I].
    assert (T : exists u, data = u ++ rest) by (apply cut_app in E; exists (m ++ [SP]); rewrite <- app_assoc; exact E).
    cbv zeta. destruct (_ =? 0)%Z.
    + destruct m; [exact I|]. destruct (method_parse _); first [exact I|exact T].
    + destruct (buf_append _ _); [|exact I]. destruct (buf_finish _) as [mv b']. destruct mv; [exact I|]. destruct (method_parse _); first [exact I|exact T].
  - unfold step_path. destruct (cut data LF) as [[m rest]|] eqn:E; [|destruct (buf_append _ _); exact I].
    assert (T : exists u, data = u ++ rest) by (apply cut_app in E; exists (m ++ [LF]); rewrite <- app_assoc; exact E).
    destruct (buf_append _ _); [|exact I]. destruct (buf_finish _) as [line b']. destruct (request_line _ line) as [x|x] eqn:Er; [|exact T].
    unfold request_line in Er. destruct x; try exact I. exfalso.
    repeat match type of Er with
    | inl _ = inl _ => discriminate
    | context [match ?x with _ => _ end] => destruct x
    end; discriminate.
  - unfold step_header_key. destruct data as [|c data]; [exact I|]. destruct (Byte.eqb c LF); [exists [c]; reflexivity|].
    destruct (Byte.eqb c CR); [exists [c]; reflexivity|].
    destruct (cut (c :: data) x3a) as [[m rest]|] eqn:E; [|destruct (buf_append _ _); exact I].
    assert (T : exists u, c :: data = u ++ rest) by (apply cut_app in E; exists (m ++ [x3a]); rewrite <- app_assoc; exact E).
    destruct (buf_append _ _); [|exact I]. destruct (buf_finish _) as [key b']. cbv zeta. destruct (_ >? _)%Z; [exact I|]. destruct (key_is _ _); exact T.
  - unfold step_content_length. destruct (clen_loop _ data) as [n [d|]] eqn:E; [|exact I]. apply clen_app in E as [u ->]. destruct d as [|c d]; [exact I|].
    destruct (Byte.eqb c CR); [exists (u ++ [c]); rewrite <- app_assoc; reflexivity|]. destruct (Byte.eqb c LF); [exists (u ++ [c]); rewrite <- app_assoc; reflexivity|exact I].
  - unfold step_content_length_cr. destruct data as [|c d]; [exact I|]. destruct (Byte.eqb c LF); [exists [c]; reflexivity|exact I].
  - unfold step_header_value. destruct (cut data LF) as [[m rest]|] eqn:E; [|destruct (buf_append _ _); [destruct (_ >? _)%Z|]; exact I].
    assert (T : exists u, data = u ++ rest) by (apply cut_app in E; exists (m ++ [LF]); rewrite <- app_assoc; exact E).
    destruct (buf_append _ _); [|exact I]. destruct (_ >? _)%Z; [exact I|]. destruct (buf_finish _) as [raw b']. cbv zeta. destruct (last_byte _); [exact T|exact I].
  - unfold step_crlfcr. destruct data as [|c d]; [exact I|]. destruct (Byte.eqb c LF); [exists [c]; reflexivity|exact I].
Qed.
Lemma run_tail : forall cfg fuel l p data p' extra, run cfg fuel l p data = RDone p' extra -> exists u, data = u ++ extra.
Proof.
  intros cfg. induction fuel as [|f IH]; intros l p data p' extra H; [discriminate|]. cbn [run] in H.
  pose proof (step_tail cfg l p data) as T. destruct (step cfg l p data) as [l2 p2 d2|res].
  - destruct T as [u ->]. apply IH in H as [u2 ->]. exists (u ++ u2). apply app_assoc.
  - subst res. exact T.
Qed.

Section Mem.
Variable CS : Type.
Variable mparse : CS -> bytes -> bool -> CS * (slice * nat * option cerr).
Hypothesis within : Within mparse.
Variable max : Z.
Notation cparse := (by_value mparse).
Notation Same := (Same CS).

Lemma other_pending : forall op b c mb m o b1 c1, Bare CS b mb -> Shown c m -> is_read op = false ->
  body_op cparse max op b c = (o, b1, c1) -> bd_pending b1 = bd_pending b.
Proof.
  intros op b c mb m o b1 c1 HB HS Hr H. destruct op as [| |n|cb|]; try discriminate; cbn [body_op] in H.
  - destruct (body_bytes cparse max b c) as ((r, b2), c2) eqn:E. injection H as <- <- <-. unfold body_bytes in E.
    destruct (bd_eof b); [injection E as <- <- <-; reflexivity|].
    match type of E with (if ?x then _ else _) = _ => destruct x end; [injection E as <- <- <-; reflexivity|].
    match type of E with bytes_loop _ _ _ ?b0 _ = _ => destruct (bytes_loop_shown CS mparse within max _ b0 (set_full (bd_full b0) (bd_cap b0) mb) c m _ _ _ ltac:(unfold Bare in *; rewrite HB; reflexivity) HS E) as (mb1 & m1 & E1 & HB1 & HS1 & HL1 & He1 & Hp1) end.
    exact Hp1.
  - destruct (retrieve cparse max b c) as (((d, e), b2), c2) eqn:E. injection H as <- <- <-. eapply retrieve_error. exact E.
  - unfold body_callback in H. destruct (callback_loop cparse max (loop_fuel c) cb [] b c) as (((ps, r), b2), c2) eqn:E. injection H as <- <- <-.
    destruct (callback_loop_shown CS mparse within max _ _ _ _ _ _ _ _ _ _ _ HB HS E) as (mb2 & m2 & E2 & HB2 & HS2 & HL & He & Hp). exact Hp.
  - unfold body_discard in H. destruct (discard_loop cparse max (loop_fuel c) b c) as ((r, b2), c2) eqn:E. injection H as <- <- <-.
    destruct (discard_loop_shown CS mparse within max _ _ _ _ _ _ _ _ HB HS E) as (mb2 & m2 & E2 & HB2 & HS2 & HL & He & Hp). exact Hp.
Qed.

Definition Inv (u : usage) (b : body CS) (c : client) (mb : mbody CS) (m : mclient) : Prop :=
  match u with
  | Fresh => Same true b c mb m /\ bd_pending b = []
  | Reading => Same true b c mb m
  | Over => Same false b c mb m
  end.
Lemma inv_over : forall u b c mb m, Inv u b c mb m -> Inv Over b c mb m.
Proof. intros [] b c mb m H; cbn in *; unfold L_Mem.Same in *; intuition discriminate. Qed.
Lemma inv_reach : forall u v b c mb m, reached u v -> Inv u b c mb m -> Inv v b c mb m.
Proof. intros [] [] b c mb m Hr H; try contradiction; auto; try (apply inv_over in H; exact H). cbn in *. apply H. Qed.
Lemma inv_shown : forall u b c mb m, Inv u b c mb m -> Bare CS b (mb_body mb) /\ Shown c m.
Proof. intros u b c mb m H. apply inv_over in H. destruct H as (? & ? & _). auto. Qed.
Lemma reached_refl : forall u, reached u u. Proof. intros []; exact I. Qed.
Lemma reached_trans : forall a b c, reached a b -> reached b c -> reached a c.
Proof. intros [] [] []; cbn; tauto. Qed.
Lemma after_reached : forall u op, reached u (after_op u op).
Proof. intros [] []; exact I. Qed.
Lemma other_reached : forall u, reached u (after_other u).
Proof. intros []; exact I. Qed.

Lemma op_inv : forall op u b c mb m o b1 c1, Inv u b c mb m -> (is_read op = true -> u <> Over) ->
  body_op cparse max op b c = (o, b1, c1) ->
  exists mb1 m1, m_op mparse max op mb m = (o, mb1, m1) /\ Inv (after_op u op) b1 c1 mb1 m1.
Proof.
  intros op u b c mb m o b1 c1 HI Hr H. destruct (inv_shown _ _ _ _ _ HI) as [HB HS]. destruct (is_read op) eqn:Er.
  - assert (HSame : Same true b c mb m). { specialize (Hr eq_refl). destruct u; cbn in HI; [apply HI|exact HI|congruence]. }
    destruct (op_shown CS mparse within max op true b c mb m o b1 c1 HSame ltac:(auto) H) as (mb1 & m1 & E & HS1). rewrite Er in HS1.
    exists mb1, m1. split; [exact E|]. destruct op; try discriminate. specialize (Hr eq_refl). destruct u; [exact HS1|exact HS1|congruence].
  - assert (Ha : after_op u op = after_other u) by (destruct op; try discriminate; reflexivity). rewrite Ha.
    pose proof (other_pending op b c (mb_body mb) m o b1 c1 HB HS Er H) as Hp. destruct u; cbn [Inv after_other] in *.
    + destruct HI as [HI Hn]. destruct (op_shown CS mparse within max op true b c mb m o b1 c1 HI ltac:(auto) H) as (mb1 & m1 & E & HS1). rewrite Er, Hn in HS1.
      exists mb1, m1. split; [exact E|]. split; [exact HS1|]. congruence.
    + destruct (op_shown CS mparse within max op true b c mb m o b1 c1 HI ltac:(auto) H) as (mb1 & m1 & E & HS1).
      exists mb1, m1. split; [exact E|]. destruct HS1 as (X & Y & _). split; [exact X|]. split; [exact Y|discriminate].
    + destruct (op_shown CS mparse within max op false b c mb m o b1 c1 HI ltac:(congruence) H) as (mb1 & m1 & E & HS1).
      exists mb1, m1. split; [exact E|]. destruct HS1 as (X & Y & _). split; [exact X|]. split; [exact Y|discriminate].
Qed.
Lemma discard_inv : forall u b c mb m res b1 c1, Inv u b c mb m -> body_discard cparse max b c = (res, b1, c1) ->
  exists mb1 m1, m_discard_loop mparse max (m_fuel m) (mb_body mb) m = (res, mb1, m1) /\ Inv (after_other u) b1 c1 (MBody mb1 (mb_held mb)) m1.
Proof.
  intros u b c mb m res b1 c1 HI H. pose proof (op_inv ODiscard u b c mb m (RDiscard res) b1 c1 HI ltac:(discriminate)) as G.
  cbn [body_op m_op after_op] in G. rewrite H in G. destruct (G eq_refl) as (mb1 & m1 & E & HI1).
  destruct (m_discard_loop mparse max (m_fuel m) (mb_body mb) m) as ((res2, mb2), m2). injection E as -> <- <-. eauto.
Qed.
Lemma read_inv : forall u b c mb m d e c1, Inv u b c mb m -> client_read c = ((d, e), c1) ->
  exists s m1, mc_read m = ((s, e), m1) /\ sl_get (mc_mem m1) s = d /\ Fit (mc_mem m1) s /\ Inv (after_other u) b c1 mb m1.
Proof.
  intros u b c mb m d e c1 HI H. destruct (inv_shown _ _ _ _ _ HI) as [HB HS].
  destruct (read_shown c m d e c1 HS H) as (s & m1 & E & Hg & Hf & HS1 & HL). exists s, m1. split; [exact E|]. split; [exact Hg|]. split; [exact Hf|].
  destruct u; cbn [Inv after_other] in *; try (split; [exact HB|split; [exact HS1|discriminate]]).
  destruct HI as [(_ & _ & HH) Hp]. split; [|exact Hp]. split; [exact HB|]. split; [exact HS1|]. intros _. destruct (HH eq_refl) as [Hg2 Hf2].
  pose proof (get_length _ _ Hf2) as G. rewrite Hg2, Hp in G. cbn in G. split; [rewrite Hp; apply get_nil; auto|]. unfold Fit in *. lia.
Qed.
Lemma shown_out : forall c m o w, Shown c m -> Shown (Client (cl_net c) (cl_pending c) o w) (MClient (mc_net m) (mc_mem m) (mc_pending m) o w).
Proof. intros c m o w [Hn Hr Hp Hi Ho Hw]. constructor; auto. Qed.
Lemma inv_out : forall u b c mb m o w, Inv u b c mb m ->
  Inv u b (Client (cl_net c) (cl_pending c) o w) mb (MClient (mc_net m) (mc_mem m) (mc_pending m) o w).
Proof.
  intros u b c mb m o w H. assert (G : forall x, Same x b c mb m -> Same x b (Client (cl_net c) (cl_pending c) o w) mb (MClient (mc_net m) (mc_mem m) (mc_pending m) o w)).
  { intros x (A & B & C). split; [exact A|]. split; [apply shown_out; exact B|]. exact C. }
  destruct u; cbn [Inv] in *; [destruct H; split|..]; auto.
Qed.
Lemma client_over : forall c m, Shown c m -> c = over_input (cl_net c) (cl_pending c) (Client [] [] (mc_out m) (mc_wres m)).
Proof. intros c m [Hn Hr Hp Hi Ho Hw]. unfold over_input. cbn. rewrite <- Ho, <- Hw. destruct c; reflexivity. Qed.
Lemma write_inv : forall u b c mb m d ok c1, Inv u b c mb m -> client_write c d = (ok, c1) ->
  exists m1, mc_write m d = (ok, m1) /\ Inv u b c1 mb m1.
Proof.
  intros u b c mb m d ok c1 HI H. destruct (inv_shown _ _ _ _ _ HI) as [_ HS]. rewrite (client_over c m HS), write_frame in H. unfold mc_write.
  destruct (client_write (Client [] [] (mc_out m) (mc_wres m)) d) as [ok2 c2]. injection H as <- <-. eexists. split; [reflexivity|].
  apply inv_out. exact HI.
Qed.
Lemma response_inv : forall u b c mb m p r f s res s1 c1 x, Inv u b c mb m -> write_response p r f s c = (res, s1, c1, x) ->
  exists m1, m_write_response p r f s m = (res, s1, m1) /\ Inv u b c1 mb m1.
Proof.
  intros u b c mb m p r f s res s1 c1 x HI H. destruct (inv_shown _ _ _ _ _ HI) as [_ HS]. rewrite (client_over c m HS), response_frame in H. unfold m_write_response.
  destruct (write_response p r f s (Client [] [] (mc_out m) (mc_wres m))) as [[[res2 s2] c2] x2]. injection H as <- <- <- <-. eexists. split; [reflexivity|].
  apply inv_out. exact HI.
Qed.

Variable W : Type.
Lemma tidy_reached : forall u (h : hprog W) v, Tidy u h v -> reached u v.
Proof.
  induction 1; auto.
  - eapply reached_trans; [apply after_reached|]. apply (H1 (RDiscard None)).
  - eapply reached_trans; [apply other_reached|]. apply (H0 None).
  - eapply reached_trans; [apply other_reached|]. apply (H0 ([], None)).
  - apply (H0 true).
  - eapply reached_trans; eassumption.
  - apply (H0 new_request).
Qed.

(* what a handler comes to *)
Definition SameRes (v : usage) (res : hres CS W) (mres : mres CS W) : Prop :=
  match res, mres with
  | HDone resp w r b c, MDone resp2 w2 r2 mb m => resp = resp2 /\ w = w2 /\ r = r2 /\ Inv v b c mb m
  | HPanic r b c, MPanic r2 mb m => r = r2 /\ Inv v b c mb m
  | HStuck, MStuck => True
  | _, _ => False
  end.
Lemma run_same : forall u (h : hprog W) v, Tidy u h v -> forall r b c mb m, Inv u b c mb m ->
  SameRes v (run_handler cparse max h r b c) (m_run mparse max h r mb m).
Proof.
  induction 1 as [u v resp w Hr|u v op k Hr Hk IH|u v g k Hk IH|u v k Hk IH|u v k Hk IH|u v d k Hk IH|u v Hr|u mid v p q k Hp IHp Hq IHq Hm Hk IHk|u v k Hk IH];
    intros r b c mb m HI; cbn [run_handler m_run].
  - repeat (split; [reflexivity|]). eapply inv_reach; eassumption.
  - destruct (body_op cparse max op b c) as ((o, b1), c1) eqn:E. destruct (op_inv op u b c mb m o b1 c1 HI Hr E) as (mb1 & m1 & -> & HI1).
    destruct (stops o) as [[|]|].
    + split; [reflexivity|]. eapply inv_reach; [|exact HI1]. apply (tidy_reached _ _ _ (Hk o)).
    + exact I.
    + apply IH. exact HI1.
  - apply IH. exact HI.
  - destruct (body_discard cparse max b c) as ((res, b1), c1) eqn:E. destruct (discard_inv u b c mb m res b1 c1 HI E) as (mb1 & m1 & -> & HI1).
    destruct res as [[e|]|]; [apply IH; exact HI1|apply IH; exact HI1|exact I].
  - destruct (client_read c) as ((d, e), c1) eqn:E. destruct (read_inv u b c mb m d e c1 HI E) as (s & m1 & -> & -> & _ & HI1). apply IH. exact HI1.
  - destruct (client_write c d) as (ok, c1) eqn:E. destruct (write_inv u b c mb m d ok c1 HI E) as (m1 & -> & HI1). apply IH. exact HI1.
  - split; [reflexivity|]. eapply inv_reach; eassumption.
  - pose proof (IHp r b c mb m HI) as S1. destruct (run_handler cparse max p r b c) as [resp w r1 b1 c1|r1 b1 c1|], (m_run mparse max p r mb m) as [resp2 w2 r2 mb1 m1|r2 mb1 m1|]; try contradiction.
    + destruct S1 as (<- & <- & <- & HI1). apply IHk. exact HI1.
    + destruct S1 as (<- & HI1). pose proof (IHq r1 b1 c1 mb1 m1 HI1) as S2.
      destruct (run_handler cparse max q r1 b1 c1) as [resp w r3 b3 c3|r3 b3 c3|], (m_run mparse max q r1 mb1 m1) as [resp2 w2 r4 mb3 m3|r4 mb3 m3|]; try contradiction.
      * destruct S2 as (<- & <- & <- & HI2). apply IHk. exact HI2.
      * destruct S2 as (<- & HI2). split; [reflexivity|]. eapply inv_reach; eassumption.
      * exact I.
    + exact I.
  - apply IH. exact HI.
Qed.

(* ---- a whole connection ---- *)
Variable cfg : hcfg.
Variable on_request : W -> request -> hprog W.
Variable on_error : W -> request -> http_error -> hprog W.
Hypothesis tidy_request : forall w r, Tidy Fresh (on_request w r) Over.
Hypothesis tidy_error : forall w r e, Tidy Over (on_error w r e) Over.

Definition SameEnd (x : ending * conn CS W) (y : ending * mconn CS W) : Prop := fst x = fst y /\ ShownConn (snd x) (snd y).
Lemma shown_inv : forall (st : conn CS W) (mst : mconn CS W), ShownConn st mst -> Inv Over (k_body st) (k_client st) (mk_body mst) (mk_client mst).
Proof. intros st mst H. split; [exact (sc_body _ _ H)|]. split; [exact (sc_client _ _ H)|discriminate]. Qed.
Lemma inv_conn : forall u p s c b pre (w : W) m mb, Inv u b c mb m -> ShownConn (Conn p s c b pre w) (MConn p s m mb pre w).
Proof. intros u p s c b pre w m mb H. destruct (inv_shown _ _ _ _ _ H) as [HB HS]. constructor; auto. Qed.
Lemma close_same : forall e (st : conn CS W) (mst : mconn CS W), ShownConn st mst -> SameEnd (close_with cparse max on_error e st) (m_close_with mparse max on_error e mst).
Proof.
  intros e st mst H. unfold close_with, m_close_with. rewrite <- (sc_parser _ _ H), <- (sc_world _ _ H), <- (sc_ser _ _ H), <- (sc_pre _ _ H).
  pose proof (run_same _ _ _ (tidy_error (k_world st) (p_req (k_parser st)) ErrCloseConnection) (p_req (k_parser st)) _ _ _ _ (shown_inv _ _ H)) as S1.
  destruct (run_handler _ _ _ _ _ _) as [resp w r1 b1 c1|r1 b1 c1|], (m_run _ _ _ _ _ _) as [resp2 w2 r2 mb1 m1|r2 mb1 m1|]; try contradiction.
  - destruct S1 as (<- & <- & <- & HI). split; [reflexivity|]. eapply inv_conn. exact HI.
  - split; [reflexivity|exact H].
  - split; [reflexivity|exact H].
Qed.
Lemma bad_head_same : forall (st : conn CS W) (mst : mconn CS W) e, ShownConn st mst -> SameEnd (on_bad_head cparse max on_error st e) (m_on_bad_head mparse max on_error mst e).
Proof.
  intros st mst e H. unfold on_bad_head, m_on_bad_head. rewrite <- (sc_parser _ _ H), <- (sc_world _ _ H), <- (sc_ser _ _ H), <- (sc_pre _ _ H).
  pose proof (run_same _ _ _ (tidy_error (k_world st) (p_req (k_parser st)) e) (p_req (k_parser st)) _ _ _ _ (shown_inv _ _ H)) as S1.
  destruct (run_handler _ _ _ _ _ _) as [resp w r1 b1 c1|r1 b1 c1|], (m_run _ _ _ _ _ _) as [resp2 w2 r2 mb1 m1|r2 mb1 m1|]; try contradiction.
  - destruct S1 as (<- & <- & <- & HI). destruct (write_response _ _ _ _ c1) as [[[res s1] c2] x] eqn:E.
    destruct (response_inv _ _ _ _ _ _ _ _ _ _ _ _ _ HI E) as (m2 & -> & HI2).
    destruct res; (split; [reflexivity|]); eapply inv_conn; exact HI2.
  - split; [reflexivity|exact H].
  - split; [reflexivity|exact H].
Qed.
Definition SameNext (x : (ending * conn CS W) + conn CS W) (y : (ending * mconn CS W) + mconn CS W) : Prop :=
  match x, y with inl a, inl b => SameEnd a b | inr a, inr b => ShownConn a b | _, _ => False end.
Lemma head_same : forall (st : conn CS W) (mst : mconn CS W) extra s, ShownConn st mst -> sl_get (mc_mem (mk_client mst)) s = extra -> Fit (mc_mem (mk_client mst)) s ->
  SameNext (on_head cparse max on_request on_error st extra) (m_on_head mparse max on_request on_error mst s).
Proof.
  intros st mst extra s H Hg Hf. unfold on_head, m_on_head. rewrite <- (sc_parser _ _ H), <- (sc_world _ _ H), <- (sc_ser _ _ H), <- (sc_pre _ _ H).
  set (r := p_req (k_parser st)).
  match goal with |- context [if wants_switch r then ?X else ?Y] => destruct (if wants_switch r then X else Y) as [[ser pre] version] end.
  assert (HI : Inv Fresh (body_init (k_body st) r) (client_unread (k_client st) extra) (mb_init (mk_body mst) r) (mc_unread (mk_client mst) s)).
  { split; [|unfold body_init; destruct (enc_chunked (r_encoding r)); reflexivity].
    apply init_same; [apply unread_shown; [exact (sc_client _ _ H)|exact Hg|exact Hf]|rewrite (sc_body _ _ H); reflexivity]. }
  pose proof (run_same _ _ _ (tidy_request (k_world st) r) r _ _ _ _ HI) as S1.
  destruct (run_handler _ _ _ _ _ _) as [resp w r1 b1 c1|r1 b1 c1|], (m_run _ _ _ _ _ _) as [resp2 w2 r2 mb1 m1|r2 mb1 m1|]; try contradiction.
  - destruct S1 as (<- & <- & <- & HI1). destruct (r_hijacked r1); [split; [reflexivity|]; eapply inv_conn; exact HI1|].
    destruct (write_response _ _ _ _ c1) as [[[res s1] c2] x] eqn:E.
    destruct (response_inv _ _ _ _ _ _ _ _ _ _ _ _ _ HI1 E) as (m2 & -> & HI2).
    destruct res; cbn [SameNext]; try (apply close_same; eapply inv_conn; exact HI2); try (split; [reflexivity|]; eapply inv_conn; exact HI2).
    unfold request_clear_full, m_clear. destruct (body_discard cparse max b1 c2) as ((res2, b2), c3) eqn:Ed.
    destruct (discard_inv _ _ _ _ _ _ _ _ HI2 Ed) as (mb2 & m3 & -> & HI3).
    destruct res2 as [[e|]|]; cbn [SameNext]; [apply close_same; eapply inv_conn; exact HI3|eapply inv_conn; exact HI3|split; [reflexivity|]; eapply inv_conn; exact HI3].
  - split; [reflexivity|exact H].
  - split; [reflexivity|exact H].
Qed.
Lemma serve_same : forall fuel (st : conn CS W) (mst : mconn CS W), ShownConn st mst ->
  SameEnd (serve cparse max cfg on_request on_error fuel st) (m_serve mparse max cfg on_request on_error fuel mst).
Proof.
  induction fuel as [|n IH]; intros st mst H; cbn [serve m_serve]; [split; [reflexivity|exact H]|].
  destruct (client_read (k_client st)) as ((data, e), c1) eqn:E.
  destruct (read_shown _ _ _ _ _ (sc_client _ _ H) E) as (s & m1 & -> & Hg & Hf & HS1 & _).
  assert (H1 : forall p, ShownConn (Conn p (k_ser st) c1 (k_body st) (k_pre st) (k_world st)) (MConn p (mk_ser mst) m1 (mk_body mst) (mk_pre mst) (mk_world mst))).
  { intros p. constructor; cbn; try reflexivity; try apply H. exact HS1. }
  cbn [mk_parser mk_ser mk_client mk_body mk_pre mk_world]. unfold set_k_client, set_k_parser. cbn [k_parser k_ser k_client k_body k_pre k_world].
  rewrite (sc_parser _ _ H). destruct e as [e|]; [apply close_same; apply H1|]. rewrite Hg.
  destruct (parse cfg (mk_parser mst) data) as [p|p extra|p err| |] eqn:Ep.
  - apply IH. apply H1.
  - apply run_tail in Ep as [u Eu]. pose proof (get_length _ _ Hf) as HL. rewrite Hg in HL.
    assert (Hn : (sl_len s - List.length extra)%nat = List.length u) by (rewrite <- HL, Eu, app_length; lia). rewrite Hn.
    pose proof (head_same _ _ extra (sl_from (List.length u) s) (H1 p)) as G. cbn [mk_client] in G.
    specialize (G ltac:(rewrite get_from, Hg, Eu, skipn_app, skipn_all, Nat.sub_diag; reflexivity)
                  ltac:(apply fit_from; [exact Hf|rewrite <- HL, Eu, app_length; lia])).
    destruct (on_head _ _ _ _ _ _) as [fin|st2], (m_on_head _ _ _ _ _ _) as [fin2|mst2]; try contradiction; [exact G|apply IH; exact G].
  - apply bad_head_same. apply H1.
  - split; [reflexivity|]. apply H1.
  - split; [reflexivity|]. apply H1.
Qed.
Lemma new_shown : forall umax kmax vmax fbs defs enc (cs : CS) net writes buff (w : W),
  Forall (fun ev : bytes * option neterr => List.length (fst ev) <= List.length buff)%nat net ->
  ShownConn (new_conn umax kmax vmax fbs defs enc cs (new_client net writes) w) (m_new_conn umax kmax vmax fbs defs enc cs net writes buff w).
Proof. intros. constructor; try reflexivity. constructor; try reflexivity; try assumption. cbn. lia. Qed.
Lemma server_same : forall umax kmax vmax fbs defs enc (cs : CS) net writes buff (w : W) fuel e st me mst,
  Forall (fun ev : bytes * option neterr => List.length (fst ev) <= List.length buff)%nat net ->
  serve cparse max cfg on_request on_error fuel (new_conn umax kmax vmax fbs defs enc cs (new_client net writes) w) = (e, st) ->
  m_serve mparse max cfg on_request on_error fuel (m_new_conn umax kmax vmax fbs defs enc cs net writes buff w) = (me, mst) ->
  me = e /\ mk_world mst = k_world st /\ mc_out (mk_client mst) = cl_out (k_client st).
Proof.
  intros umax kmax vmax fbs defs enc cs net writes buff w fuel e st me mst Hr H1 H2.
  destruct (serve_same fuel _ _ (new_shown umax kmax vmax fbs defs enc cs net writes buff w Hr)) as [Ha Hb].
  rewrite H1, H2 in Ha, Hb. cbn [fst snd] in *. split; [auto|]. split; [symmetry; apply (sc_world _ _ Hb)|symmetry; apply (sh_out _ _ (sc_client _ _ Hb))].
Qed.
End Mem.
