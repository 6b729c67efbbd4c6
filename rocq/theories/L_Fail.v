(* Lemmas: connections whose writes fail. *)
From Verif Require Import M_Base M_Status M_Method M_Proto M_KeyValue M_Query M_Request M_Parser M_Client M_Body
  M_Response M_Serializer M_Suit S_Fail L_Base L_Conn.

Lemma cuts_app : forall w ws ws' more, Cuts w ws ws' -> Cuts w (ws ++ more) ws'.
Proof. intros w ws ws' more H. induction H; cbn [app]; constructor; assumption. Qed.
Lemma cuts_after : forall w ws ws2 ws2', Passes w ws -> Cuts (skipn (List.length ws) w) ws2 ws2' -> Cuts w (ws ++ ws2) (ws ++ ws2').
Proof.
  intros w ws. revert w. induction ws as [|d ws IH]; intros w ws2 ws2' Hp Hc; [exact Hc|].
  destruct w as [|o w]; [inversion Hc|]. cbn [List.length firstn skipn app] in *. unfold Passes in Hp. cbn in Hp.
  inversion Hp; subst. constructor. apply IH; assumption.
Qed.
Lemma passes_app : forall w ws ws2, Passes w ws -> Passes (skipn (List.length ws) w) ws2 -> Passes w (ws ++ ws2).
Proof.
  unfold Passes. intros w ws ws2 H1 H2. rewrite app_length. revert w H1 H2. induction ws as [|d ws IH]; intros w H1 H2; [exact H2|].
  destruct w as [|o w]; [constructor|]. cbn in *. inversion H1; subst. constructor; [reflexivity|]. apply IH; assumption.
Qed.
Lemma passes_nil : forall w, Passes w [].
Proof. intros w. constructor. Qed.
Lemma over_over : forall a b c, over a (over b c) = over a c.
Proof. reflexivity. Qed.
Lemma skipn_add : forall (A : Type) n m (l : list A), skipn m (skipn n l) = skipn (n + m) l.
Proof. intros A n m. induction n as [|n IH]; intros l; [reflexivity|]. destruct l; [destruct m; reflexivity|apply IH]. Qed.
Lemma over_self : forall c, cl_wres c = [] -> over [] c = c.
Proof. intros [n p o w] H. cbn in H. subst. reflexivity. Qed.

(* ---- reading does not look at the writes ---- *)
Lemma read_over : forall w c, client_read (over w c) = (fst (client_read c), over w (snd (client_read c))).
Proof. intros w [[|ev n] p o w0]; destruct p; reflexivity. Qed.
Lemma unread_over : forall w c d, client_unread (over w c) d = over w (client_unread c d).
Proof. reflexivity. Qed.

Section Reads.
Variable CS : Type.
Variable cparse : CS -> bytes -> bool -> CS * (bytes * bytes * option cerr).
Variable max : Z.
Lemma plain_over : forall w (b : body CS) c, plain_read max b (over w c) = (fst (plain_read max b c), over w (snd (plain_read max b c))).
Proof.
  intros w b c. unfold plain_read. destruct (bd_left b =? 0)%Z; [reflexivity|]. rewrite read_over.
  destruct (client_read c) as [[d e] c1]. cbn [fst snd]. destruct e; [reflexivity|].
  destruct (bd_left b >? max)%Z; [reflexivity|]. destruct (len d >=? bd_left b)%Z; reflexivity.
Qed.
Lemma chunked_over : forall w (b : body CS) c, chunked_read cparse max b (over w c) = (fst (chunked_read cparse max b c), over w (snd (chunked_read cparse max b c))).
Proof.
  intros w b c. unfold chunked_read. rewrite read_over.
  destruct (client_read c) as [[d e] c1]. cbn [fst snd]. destruct e; [reflexivity|].
  destruct (cparse (bd_cs b) d (bd_trailer b)) as [cs' [[chunk extra] ce]].
  destruct ce as [[|]|]; try reflexivity; destruct (_ || _)%bool; reflexivity.
Qed.
Lemma retrieve_over : forall w (b : body CS) c, retrieve cparse max b (over w c) = (fst (retrieve cparse max b c), over w (snd (retrieve cparse max b c))).
Proof.
  intros w b c. unfold retrieve. destruct (bd_eof b); [reflexivity|]. destruct (bd_chunked b).
  - rewrite chunked_over. destruct (chunked_read cparse max b c) as [[r b1] c1]. reflexivity.
  - rewrite plain_over. destruct (plain_read max b c) as [[r b1] c1]. reflexivity.
Qed.
Lemma bytes_loop_over : forall w n (b : body CS) c, bytes_loop cparse max n b (over w c) = (fst (bytes_loop cparse max n b c), over w (snd (bytes_loop cparse max n b c))).
Proof.
  intros w n. induction n as [|n IH]; intros b c; cbn [bytes_loop]; [reflexivity|]. rewrite retrieve_over.
  destruct (retrieve cparse max b c) as [[[d e] b1] c1]. cbn [fst snd]. destruct e as [[]|]; try reflexivity. apply IH.
Qed.
Lemma callback_loop_over : forall w cb n seen (b : body CS) c, callback_loop cparse max n cb seen b (over w c) = (fst (callback_loop cparse max n cb seen b c), over w (snd (callback_loop cparse max n cb seen b c))).
Proof.
  intros w cb n. induction n as [|n IH]; intros seen b c; cbn [callback_loop]; [reflexivity|]. rewrite retrieve_over.
  destruct (retrieve cparse max b c) as [[[d e] b1] c1]. cbn [fst snd]. destruct e as [[]|]; try reflexivity. destruct (cb (seen ++ [d])); [apply IH|reflexivity].
Qed.
Lemma discard_loop_over : forall w n (b : body CS) c, discard_loop cparse max n b (over w c) = (fst (discard_loop cparse max n b c), over w (snd (discard_loop cparse max n b c))).
Proof.
  intros w n. induction n as [|n IH]; intros b c; cbn [discard_loop]; [reflexivity|]. destruct (bd_eof b); [reflexivity|]. rewrite retrieve_over.
  destruct (retrieve cparse max b c) as [[[d e] b1] c1]. cbn [fst snd]. destruct e as [[]|]; try reflexivity. apply IH.
Qed.
Lemma discard_over : forall w (b : body CS) c, body_discard cparse max b (over w c) = (fst (body_discard cparse max b c), over w (snd (body_discard cparse max b c))).
Proof. intros w b c. apply discard_loop_over. Qed.
Lemma read_body_over : forall w n (b : body CS) c, body_read cparse max n b (over w c) = (fst (body_read cparse max n b c), over w (snd (body_read cparse max n b c))).
Proof.
  intros w n b c. unfold body_read. destruct (bd_pending b), (bd_error b); try reflexivity.
  rewrite retrieve_over. destruct (retrieve cparse max b c) as [[[d e] b1] c1]. reflexivity.
Qed.
Lemma op_over : forall w op (b : body CS) c, body_op cparse max op b (over w c) = (fst (body_op cparse max op b c), over w (snd (body_op cparse max op b c))).
Proof.
  intros w op b c. destruct op; unfold body_op.
  - unfold body_bytes. destruct (bd_eof b); [reflexivity|]. cbv zeta.
    match goal with |- context [if ?X then (BRPanic, b, over w c) else _] => destruct X end; [reflexivity|].
    change (loop_fuel (over w c)) with (loop_fuel c). rewrite bytes_loop_over.
    destruct (bytes_loop cparse max (loop_fuel c) _ c) as [[r b1] c1]. reflexivity.
  - rewrite retrieve_over. destruct (retrieve cparse max b c) as [[[d e] b1] c1]. reflexivity.
  - rewrite read_body_over. destruct (body_read cparse max n b c) as [[[d e] b1] c1]. reflexivity.
  - unfold body_callback. change (loop_fuel (over w c)) with (loop_fuel c). rewrite callback_loop_over.
    destruct (callback_loop cparse max (loop_fuel c) cb [] b c) as [[[ps r] b1] c1]. reflexivity.
  - rewrite discard_over. destruct (body_discard cparse max b c) as [[r b1] c1]. reflexivity.
Qed.
Definition hover {W} (w : list (option nat)) (x : hres CS W) : hres CS W :=
  match x with HDone resp wd r b c => HDone resp wd r b (over w c) | HPanic r b c => HPanic r b (over w c) | HStuck => HStuck end.
Lemma handler_over : forall W (h : hprog W), NoWrites h -> forall w r (b : body CS) c,
  run_handler cparse max h r b (over w c) = hover w (run_handler cparse max h r b c).
Proof.
  intros W h Hn. induction Hn as [resp wd|op k Hk IH|g k Hk IH|k Hk IH|k Hk IH| |p q k Hp IHp Hq IHq Hk IHk|k Hk IH]; intros w r b c; cbn [run_handler].
  - reflexivity.
  - rewrite op_over. destruct (body_op cparse max op b c) as [[o b1] c1]. cbn [fst snd]. destruct (stops o) as [[|]|]; try reflexivity. apply IH.
  - apply IH.
  - rewrite discard_over. destruct (body_discard cparse max b c) as [[x b1] c1]. cbn [fst snd]. destruct x as [[e|]|]; try reflexivity; apply IH.
  - rewrite read_over. destruct (client_read c) as [x c1]. cbn [fst snd]. apply IH.
  - reflexivity.
  - rewrite IHp. destruct (run_handler cparse max p r b c) as [resp wd r1 b1 c1|r1 b1 c1|]; cbn [hover]; [apply IHk| |reflexivity].
    rewrite IHq. destruct (run_handler cparse max q r1 b1 c1) as [resp wd r2 b2 c2|r2 b2 c2|]; cbn [hover]; [apply IHk|reflexivity|reflexivity].
  - apply IH.
Qed.
(* such programs leave the writes as they are *)
Definition same_out {W} (c : client) (x : hres CS W) : Prop :=
  match x with HDone _ _ _ _ c' | HPanic _ _ c' => kept c c' | HStuck => True end.
Lemma same_trans : forall W c1 c2 (x : hres CS W), kept c1 c2 -> same_out c2 x -> same_out c1 x.
Proof. intros W c1 c2 [resp w r b c|r b c|] H K; cbn [same_out] in *; try exact I; eapply kept_trans; eassumption. Qed.
Lemma handler_same : forall W (h : hprog W), NoWrites h -> forall r (b : body CS) c, same_out c (run_handler cparse max h r b c).
Proof.
  intros W h Hn. induction Hn as [resp wd|op k Hk IH|g k Hk IH|k Hk IH|k Hk IH| |p q k Hp IHp Hq IHq Hk IHk|k Hk IH]; intros r b c; cbn [run_handler].
  - apply kept_refl.
  - destruct (body_op cparse max op b c) as [[o b1] c1] eqn:E. apply op_kept in E. destruct (stops o) as [[|]|]; [exact E|exact I|]. eapply same_trans; [exact E|apply IH].
  - apply IH.
  - destruct (body_discard cparse max b c) as [[x b1] c1] eqn:E. apply discard_loop_kept in E. destruct x as [[e|]|]; [| |exact I]; (eapply same_trans; [exact E|apply IH]).
  - destruct (client_read c) as [x c1] eqn:E. apply read_kept in E. eapply same_trans; [exact E|apply IH].
  - apply kept_refl.
  - specialize (IHp r b c). destruct (run_handler cparse max p r b c) as [resp wd r1 b1 c1|r1 b1 c1|]; cbn [same_out] in IHp; [eapply same_trans; [exact IHp|apply IHk]| |exact I].
    specialize (IHq r1 b1 c1). destruct (run_handler cparse max q r1 b1 c1) as [resp wd r2 b2 c2|r2 b2 c2|]; cbn [same_out] in IHq; [| |exact I].
    + eapply same_trans; [|apply IHk]. eapply kept_trans; eassumption.
    + cbn [same_out]. eapply kept_trans; eassumption.
  - apply IH.
Qed.
End Reads.

(* ---- what one step of a broken connection has to do with the same step of a healthy one ---- *)
Definition Sim (w : list (option nat)) (c c1 c1' : client) (same broke : Prop) : Prop :=
  cl_wres c1 = [] /\ exists ws, cl_out c1 = cl_out c ++ ws /\
  ((Passes w ws /\ same /\ c1' = over (skipn (List.length ws) w) c1) \/
   (exists ws', Cuts w ws ws' /\ cl_out c1' = cl_out c ++ ws' /\ broke)).
Lemma sim_here : forall w c c1 (same broke : Prop), kept c c1 -> cl_wres c = [] -> same -> Sim w c c1 (over w c1) same broke.
Proof.
  intros w c c1 same broke [K1 K2] H S. split; [congruence|]. exists []. rewrite K1, app_nil_r. split; [reflexivity|].
  left. split; [apply passes_nil|]. split; [exact S|reflexivity].
Qed.
Lemma write_sim : forall w c d, cl_wres c = [] ->
  let '(ok, c1) := client_write c d in let '(ok', c1') := client_write (over w c) d in
  ok = true /\ Sim w c c1 c1' (ok' = true) (ok' = false).
Proof.
  intros w [n p o w0] d H. cbn in H. subst w0. unfold client_write. cbn [cl_wres over cl_net cl_pending cl_out].
  destruct w as [|[k|] w]; (split; [reflexivity|]); (split; [reflexivity|]); exists [d]; (split; [reflexivity|]).
  - left. repeat split; constructor.
  - right. exists [firstn k d]. split; [apply Cut_here|]. split; reflexivity.
  - left. split; [constructor; [reflexivity|constructor]|]. split; reflexivity.
Qed.
(* going on behind a step: the healthy connection only adds to its output *)
Lemma sim_next : forall w c c1 c1' c2 c2' (same broke same2 broke2 : Prop),
  Sim w c c1 c1' same broke ->
  (forall w1, same -> c1' = over w1 c1 -> Sim w1 c1 c2 c2' same2 broke2) ->
  (broke -> broke2 /\ cl_wres c2 = [] /\ cl_out c2' = cl_out c1' /\ exists more, cl_out c2 = cl_out c1 ++ more) ->
  Sim w c c2 c2' same2 broke2.
Proof.
  intros w c c1 c1' c2 c2' same broke same2 broke2 [_ (ws & E1 & H)] HS HB.
  destruct H as [(P & S & Ec)|(ws' & C & Eo & B)].
  - destruct (HS _ S Ec) as [W2 (ws2 & E2 & H2)]. split; [exact W2|]. exists (ws ++ ws2). split; [rewrite E2, E1, app_assoc; reflexivity|].
    destruct H2 as [(P2 & S2 & Ec2)|(ws2' & C2 & Eo2 & B2)].
    + left. split; [apply passes_app; assumption|]. split; [exact S2|]. rewrite Ec2, app_length, <- skipn_add. reflexivity.
    + right. exists (ws ++ ws2'). split; [apply cuts_after; assumption|]. split; [rewrite Eo2, E1, app_assoc; reflexivity|exact B2].
  - destruct (HB B) as (B2 & W2 & E2 & more & E3). split; [exact W2|]. exists (ws ++ more). split; [rewrite E3, E1, app_assoc; reflexivity|].
    right. exists ws'. split; [apply cuts_app; exact C|]. split; [congruence|exact B2].
Qed.

(* ---- writing a response ---- *)
Definition grows (c c' : client) : Prop := cl_wres c' = [] /\ exists more, cl_out c' = cl_out c ++ more.
Lemma grows_refl : forall c, cl_wres c = [] -> grows c c.
Proof. intros c H. split; [exact H|]. exists []. rewrite app_nil_r. reflexivity. Qed.
Lemma grows_trans : forall c1 c2 c3, grows c1 c2 -> grows c2 c3 -> grows c1 c3.
Proof. intros c1 c2 c3 [_ [m1 E1]] [W [m2 E2]]. split; [exact W|]. exists (m1 ++ m2). rewrite E2, E1, app_assoc. reflexivity. Qed.
Lemma grows_kept : forall c c', cl_wres c = [] -> kept c c' -> grows c c'.
Proof. intros c c' H [K1 K2]. split; [congruence|]. exists []. rewrite app_nil_r. exact K1. Qed.
Lemma grows_write : forall c d, cl_wres c = [] -> grows c (snd (client_write c d)).
Proof. intros [n p o w] d H. cbn in H. subst w. split; [reflexivity|]. exists [d]. reflexivity. Qed.
Lemma sim_grows : forall w c c1 c1' (same broke : Prop), Sim w c c1 c1' same broke -> grows c c1.
Proof. intros w c c1 c1' same broke [W (ws & E & _)]. split; [exact W|]. exists ws. exact E. Qed.

Lemma write_plain_grows : forall ev mem c, cl_wres c = [] -> grows c (snd (fst (write_plain ev mem c))).
Proof.
  induction ev as [|[d e] ev IH]; intros mem c H; cbn [write_plain]; [apply grows_refl; exact H|].
  destruct e as [[|]|]; try (apply grows_refl; exact H).
  destruct (_ <? _)%nat; [apply grows_refl; exact H|].
  match goal with |- context [client_write c ?X] => pose proof (grows_write c X H) as G; destruct (client_write c X) as [ok c1] end. cbn [snd] in G.
  destruct ok; [|exact G]. eapply grows_trans; [exact G|]. apply IH. apply G.
Qed.
Lemma write_plain_sim : forall ev mem w c, cl_wres c = [] ->
  let '(res, m1, c1, e1) := write_plain ev mem c in let '(res', m1', c1', e1') := write_plain ev mem (over w c) in
  Sim w c c1 c1' (res' = res /\ m1' = m1 /\ e1' = e1) (res' = WClose \/ res' = WNet).
Proof.
  induction ev as [|[d e] ev IH]; intros mem w c H; cbn [write_plain]; [apply sim_here; [apply kept_refl|exact H|repeat split]|].
  destruct e as [[|]|]; try (apply sim_here; [apply kept_refl|exact H|repeat split]).
  destruct (_ <? _)%nat; [apply sim_here; [apply kept_refl|exact H|repeat split]|].
  match goal with |- context [client_write c ?X] => pose proof (write_sim w c X H) as G; destruct (client_write c X) as [ok c1], (client_write (over w c) X) as [ok' c1'] end.
  destruct G as [-> G].
  destruct (write_plain ev (overwrite mem 0 d) c1) as [[[res m1] c2] e1] eqn:E.
  assert (W1 : cl_wres c1 = []) by apply G.
  destruct ok'.
  - destruct (write_plain ev (overwrite mem 0 d) c1') as [[[res' m1'] c2'] e1'] eqn:E'.
    eapply sim_next; [exact G| |discriminate]. intros w1 _ ->. specialize (IH (overwrite mem 0 d) w1 c1 W1). rewrite E, E' in IH. exact IH.
  - eapply sim_next; [exact G|discriminate|]. intros _. split; [left; reflexivity|].
    pose proof (write_plain_grows ev (overwrite mem 0 d) c1 W1) as Gr. rewrite E in Gr. cbn in Gr. destruct Gr as [Gw Gr]. split; [exact Gw|]. split; [reflexivity|exact Gr].
Qed.
Lemma write_chunked_grows : forall ev mem c, cl_wres c = [] -> grows c (snd (fst (write_chunked ev mem c))).
Proof.
  induction ev as [|[d e] ev IH]; intros mem c H; cbn [write_chunked]; [apply grows_refl; exact H|].
  assert (A : forall mem c, cl_wres c = [] -> grows c (snd (fst (match e with
        | None => write_chunked ev mem c
        | Some REof => let '(ok, c) := client_write c chunked_finalizer in ((if ok then WOk else WNet), mem, c, ev)
        | Some RFail => (WClose, mem, c, ev) end)))).
  { intros m cc Hc. destruct e as [[|]|]; [|apply grows_refl; exact Hc|apply IH; exact Hc].
    pose proof (grows_write cc chunked_finalizer Hc) as G. destruct (client_write cc chunked_finalizer) as [ok c1]. exact G. }
  destruct (0 <? _)%nat; [|apply A; exact H].
  destruct (_ <? _)%nat; [apply grows_refl; exact H|]. destruct (_ <? _)%nat; [apply grows_refl; exact H|].
  match goal with |- context [client_write c ?X] => pose proof (grows_write c X H) as G; destruct (client_write c X) as [ok c1] end. cbn [snd] in G.
  destruct ok; [|exact G]. eapply grows_trans; [exact G|]. apply A. apply G.
Qed.
Lemma write_chunked_sim : forall ev mem w c, cl_wres c = [] ->
  let '(res, m1, c1, e1) := write_chunked ev mem c in let '(res', m1', c1', e1') := write_chunked ev mem (over w c) in
  Sim w c c1 c1' (res' = res /\ m1' = m1 /\ e1' = e1) (res' = WClose \/ res' = WNet).
Proof.
  induction ev as [|[d e] ev IH]; intros mem w c H; cbn [write_chunked]; [apply sim_here; [apply kept_refl|exact H|repeat split]|].
  set (after := fun (mem : bytes) (c : client) => match e with
        | None => write_chunked ev mem c
        | Some REof => let '(ok, c) := client_write c chunked_finalizer in ((if ok then WOk else WNet), mem, c, ev)
        | Some RFail => (WClose, mem, c, ev) end).
  assert (A : forall mem w c, cl_wres c = [] -> let '(res, m1, c1, e1) := after mem c in let '(res', m1', c1', e1') := after mem (over w c) in
    Sim w c c1 c1' (res' = res /\ m1' = m1 /\ e1' = e1) (res' = WClose \/ res' = WNet)).
  { intros m ww cc Hc. unfold after. destruct e as [[|]|]; [|apply sim_here; [apply kept_refl|exact Hc|repeat split]|apply IH; exact Hc].
    pose proof (write_sim ww cc chunked_finalizer Hc) as G. destruct (client_write cc chunked_finalizer) as [ok c1], (client_write (over ww cc) chunked_finalizer) as [ok' c1'].
    destruct G as [-> [W (ws & E & G)]]. split; [exact W|]. exists ws. split; [exact E|]. destruct G as [(P & -> & Ec)|(ws' & C & Eo & ->)]; [left|right; exists ws'].
    - split; [exact P|]. split; [repeat split|exact Ec].
    - split; [exact C|]. split; [exact Eo|]. right. reflexivity. }
  assert (Ag : forall mem c, cl_wres c = [] -> grows c (snd (fst (after mem c)))).
  { intros m cc Hc. specialize (A m [] cc Hc). rewrite (over_self cc Hc) in A. destruct (after m cc) as [[[res m1] c1] e1]. eapply sim_grows. exact A. }
  destruct (0 <? _)%nat; [|apply A; exact H].
  destruct (_ <? _)%nat; [apply sim_here; [apply kept_refl|exact H|repeat split]|].
  destruct (_ <? _)%nat; [apply sim_here; [apply kept_refl|exact H|repeat split]|].
  match goal with |- context [client_write c ?X] => pose proof (write_sim w c X H) as G; destruct (client_write c X) as [ok c1], (client_write (over w c) X) as [ok' c1'] end.
  destruct G as [-> G]. assert (W1 : cl_wres c1 = []) by apply G.
  match goal with |- context [write_chunked ev ?M c1] =>
    change (match e with
        | None => write_chunked ev M c1
        | Some REof => let '(ok, c) := client_write c1 chunked_finalizer in ((if ok then WOk else WNet), M, c, ev)
        | Some RFail => (WClose, M, c1, ev) end) with (after M c1);
    change (match e with
        | None => write_chunked ev M c1'
        | Some REof => let '(ok, c) := client_write c1' chunked_finalizer in ((if ok then WOk else WNet), M, c, ev)
        | Some RFail => (WClose, M, c1', ev) end) with (after M c1') end.
  match goal with |- context [after ?M c1] => pose proof (Ag M c1 W1) as Gr; pose proof (A M) as AM; destruct (after M c1) as [[[res m1] c2] e1] eqn:E; cbn in Gr end.
  destruct ok'.
  - match goal with |- context [after ?M c1'] => destruct (after M c1') as [[[res' m1'] c2'] e1'] eqn:E' end.
    eapply sim_next; [exact G| |discriminate]. intros w1 _ ->. specialize (AM w1 c1 W1). rewrite E, E' in AM. exact AM.
  - eapply sim_next; [exact G|discriminate|]. intros _. split; [left; reflexivity|].
    destruct Gr as [Gw Gr]. split; [exact Gw|]. split; [reflexivity|exact Gr].
Qed.
Lemma attachment_sim : forall r f a s w c, cl_wres c = [] ->
  let '(res, s1, c1, f1) := send_attachment r f a s c in let '(res', s1', c1', f1') := send_attachment r f a s (over w c) in
  Sim w c c1 c1' (res' = res /\ s1' = s1) (res' = WClose \/ res' = WNet).
Proof.
  intros r f a s w c H. unfold send_attachment. cbv zeta.
  set (f0 := if (0 <? at_size a)%Z then f else set_te (B "chunked") f).
  set (s0 := put CRLF (if (0 <? at_size a)%Z then render_content_length (at_size a) (render_headers f0 s) else render_headers f0 s)).
  pose proof (write_sim w c (s_buff s0) H) as G. destruct (client_write c (s_buff s0)) as [ok c1], (client_write (over w c) (s_buff s0)) as [ok' c1'].
  destruct G as [-> G]. assert (W1 : cl_wres c1 = []) by apply G. cbn [negb].
  set (mem := match s_filebuf s0 with Some m => m | None => repeat x00 (s_filesize s0) end).
  set (send := fun c => let '(res, mem, c, ev) := if (0 <? at_size a)%Z then write_plain (at_events a) mem c else write_chunked (at_events a) mem c in
    match res with
    | WPanic | WStuck => (res, set_filebuf mem s0, c, set_att (Some (set_events ev a)) f0)
    | _ => (res, set_filebuf mem s0, c, set_att (Some (att_close (set_events ev a))) f0)
    end).
  set (go := fun c => if method_eqb (r_method r) HEAD then (WOk, s0, c, f0) else send c).
  change (let '(res, s1, c2, f1) := go c1 in let '(res', s1', c2', f1') := if negb ok' then (WClose, s0, c1', f0) else go c1' in
    Sim w c c2 c2' (res' = res /\ s1' = s1) (res' = WClose \/ res' = WNet)).
  assert (S : forall w c, cl_wres c = [] -> let '(res, s1, c2, f1) := go c in let '(res', s1', c2', f1') := go (over w c) in
    Sim w c c2 c2' (res' = res /\ s1' = s1) (res' = WClose \/ res' = WNet)).
  { intros ww cc Hc. unfold go. destruct (method_eqb (r_method r) HEAD); [apply sim_here; [apply kept_refl|exact Hc|repeat split]|]. unfold send.
    assert (P : let '(res, m1, c1, e1) := if (0 <? at_size a)%Z then write_plain (at_events a) mem cc else write_chunked (at_events a) mem cc in
      let '(res', m1', c1', e1') := if (0 <? at_size a)%Z then write_plain (at_events a) mem (over ww cc) else write_chunked (at_events a) mem (over ww cc) in
      Sim ww cc c1 c1' (res' = res /\ m1' = m1 /\ e1' = e1) (res' = WClose \/ res' = WNet)).
    { destruct (0 <? at_size a)%Z; [apply write_plain_sim|apply write_chunked_sim]; exact Hc. }
    destruct (if (0 <? at_size a)%Z then write_plain (at_events a) mem cc else write_chunked (at_events a) mem cc) as [[[res m1] c2] e1].
    destruct (if (0 <? at_size a)%Z then write_plain (at_events a) mem (over ww cc) else write_chunked (at_events a) mem (over ww cc)) as [[[res' m1'] c2'] e1'].
    destruct P as [W (ws & E & P)]. 
    assert (Q : Sim ww cc c2 c2' (res' = res /\ m1' = m1) (res' = WClose \/ res' = WNet)).
    { split; [exact W|]. exists ws. split; [exact E|]. destruct P as [(P & (S1 & S2 & _) & Ec)|P]; [left|right; exact P]. split; [exact P|]. split; [split; assumption|exact Ec]. }
    clear W E P. destruct Q as [W (ws2 & E & P)].
    destruct P as [(P & (-> & ->) & Ec)|(ws' & C & Eo & R)].
    - destruct res; (split; [exact W|]; exists ws2; split; [exact E|]; left; split; [exact P|]; split; [split; reflexivity|exact Ec]).
    - destruct R as [-> | ->]; destruct res; (split; [exact W|]; exists ws2; split; [exact E|]; right; exists ws'; split; [exact C|]; split; [exact Eo|]); auto. }
  assert (Sg : forall c, cl_wres c = [] -> grows c (snd (fst (go c)))).
  { intros cc Hc. specialize (S [] cc Hc). rewrite (over_self cc Hc) in S. destruct (go cc) as [[[res s1] c2] f1]. eapply sim_grows. exact S. }
  specialize (Sg c1 W1). destruct (go c1) as [[[res s1] c2] f1] eqn:E. cbn in Sg.
  destruct ok'; cbn [negb].
  - destruct (go c1') as [[[res' s1'] c2'] f1'] eqn:E'. eapply sim_next; [exact G| |discriminate].
    intros w1 _ ->. specialize (S w1 c1 W1). rewrite E, E' in S. exact S.
  - eapply sim_next; [exact G|discriminate|]. intros _. split; [left; reflexivity|].
    destruct Sg as [Gw Gr]. split; [exact Gw|]. split; [reflexivity|exact Gr].
Qed.
Lemma response_sim : forall p r f s w c, cl_wres c = [] ->
  let '(res, s1, c1, f1) := write_response p r f s c in let '(res', s1', c1', f1') := write_response p r f s (over w c) in
  Sim w c c1 c1' (res' = res /\ s1' = s1) (res' = WClose \/ res' = WNet).
Proof.
  intros p r f s w c H. unfold write_response. cbv zeta. destruct (f_att f) as [a|].
  - set (s0 := render_response_line f (render_protocol p s)). pose proof (attachment_sim r f a s0 w c H) as G.
    destruct (send_attachment r f a s0 c) as [[[res s1] c1] f1], (send_attachment r f a s0 (over w c)) as [[[res' s1'] c1'] f1'].
    destruct G as [W (ws & E & G)]. split; [exact W|]. exists ws. split; [exact E|].
    destruct G as [(P & (-> & ->) & Ec)|G]; [left|right; exact G]. split; [exact P|]. split; [split; reflexivity|exact Ec].
  - set (s0 := if method_eqb (r_method r) HEAD then _ else _).
    pose proof (write_sim w c (s_buff s0) H) as G. destruct (client_write c (s_buff s0)) as [ok c1], (client_write (over w c) (s_buff s0)) as [ok' c1'].
    destruct G as [-> [W (ws & E & G)]]. split; [exact W|]. exists ws. split; [exact E|].
    destruct G as [(P & -> & Ec)|(ws' & C & Eo & ->)]; [left|right; exists ws'].
    + split; [exact P|]. split; [split; reflexivity|exact Ec].
    + split; [exact C|]. split; [exact Eo|]. destruct (_ && _)%bool; auto.
Qed.

(* ---- the connection ---- *)
Section Served.
Variable CS : Type.
Variable cparse : CS -> bytes -> bool -> CS * (bytes * bytes * option cerr).
Variable max : Z.
Variable cfg : hcfg.
Variable W : Type.
Variable on_request : W -> request -> hprog W.
Variable on_error : W -> request -> http_error -> hprog W.
Hypothesis req_quiet : forall w r, NoWrites (on_request w r).
Hypothesis err_quiet : forall w r e, NoWrites (on_error w r e).
Notation serve := (serve cparse max cfg on_request on_error).
Notation close_with := (close_with cparse max on_error).
Notation on_head := (on_head cparse max on_request on_error).
Notation on_bad_head := (on_bad_head cparse max on_error).

Definition broke_with (e : ending) : Prop := e = EndWrite \/ e = EndParse \/ ((e = EndPanic \/ e = EndStuck) /\ NoticeFails cparse max on_error).
Definition SimEnd (w : list (option nat)) (st : conn CS W) (x x' : ending * conn CS W) : Prop :=
  Sim w (k_client st) (k_client (snd x)) (k_client (snd x'))
    (fst x' = fst x /\ snd x' = set_k_client (k_client (snd x')) (snd x)) (broke_with (fst x')).

Lemma close_sim : forall e w st, cl_wres (k_client st) = [] -> SimEnd w st (close_with e st) (close_with e (conn_over w st)).
Proof.
  intros e w [p s c b pre wd] H. cbn [k_client] in H. unfold close_with, M_Suit.close_with, conn_over, set_k_client. cbn [k_parser k_ser k_client k_body k_pre k_world].
  rewrite handler_over by apply err_quiet.
  pose proof (handler_same CS cparse max W _ (err_quiet wd (p_req p) ErrCloseConnection) (p_req p) b c) as K.
  destruct (run_handler cparse max (on_error wd (p_req p) ErrCloseConnection) (p_req p) b c) as [resp w1 r1 b1 c1|r1 b1 c1|]; cbn [hover same_out] in *; unfold SimEnd; cbn [fst snd k_client].
  - apply sim_here; [exact K|exact H|]. split; reflexivity.
  - apply sim_here; [apply kept_refl|exact H|]. split; reflexivity.
  - apply sim_here; [apply kept_refl|exact H|]. split; reflexivity.
Qed.
Lemma close_out : forall e st, kept (k_client st) (k_client (snd (close_with e st))).
Proof.
  intros e [p s c b pre wd]. unfold close_with, M_Suit.close_with. cbn [k_parser k_ser k_client k_body k_pre k_world].
  pose proof (handler_same CS cparse max W _ (err_quiet wd (p_req p) ErrCloseConnection) (p_req p) b c) as K.
  destruct (run_handler cparse max (on_error wd (p_req p) ErrCloseConnection) (p_req p) b c) as [resp w1 r1 b1 c1|r1 b1 c1|]; cbn [same_out] in K; [exact K|apply kept_refl|apply kept_refl].
Qed.
Lemma close_broke : forall st, broke_with (fst (close_with EndWrite st)).
Proof.
  intros st. unfold close_with, M_Suit.close_with.
  destruct (run_handler cparse max (on_error (k_world st) (p_req (k_parser st)) ErrCloseConnection) (p_req (k_parser st)) (k_body st) (k_client st)) eqn:E.
  - left. reflexivity.
  - right. right. split; [left; reflexivity|]. exists (k_world st), (p_req (k_parser st)), (k_body st), (k_client st). rewrite E. exact I.
  - right. right. split; [right; reflexivity|]. exists (k_world st), (p_req (k_parser st)), (k_body st), (k_client st). rewrite E. exact I.
Qed.
Lemma sim_weaken : forall w c c1 c1' (s s2 b b2 : Prop), (s -> s2) -> (b -> b2) -> Sim w c c1 c1' s b -> Sim w c c1 c1' s2 b2.
Proof.
  intros w c c1 c1' s s2 b b2 Hs Hb [Hw (ws & E & H)]. split; [exact Hw|]. exists ws. split; [exact E|].
  destruct H as [(P & S & Ec)|(ws' & C & Eo & B)]; [left|right; exists ws']; auto.
Qed.

(* the two ways a head is handled *)
Definition end_of (x : (ending * conn CS W) + conn CS W) : ending * conn CS W := match x with inl f => f | inr st => (EndStuck, st) end.
Lemma head_sim : forall w st extra, cl_wres (k_client st) = [] ->
  Sim w (k_client st) (k_client (snd (end_of (on_head st extra)))) (k_client (snd (end_of (on_head (conn_over w st) extra))))
    (match on_head st extra, on_head (conn_over w st) extra with
     | inl x, inl x' => fst x' = fst x /\ snd x' = set_k_client (k_client (snd x')) (snd x)
     | inr x, inr x' => x' = set_k_client (k_client x') x
     | _, _ => False
     end)
    (match on_head (conn_over w st) extra with inl x' => broke_with (fst x') | inr _ => False end).
Proof.
  intros w [p s c b pre wd] extra H. cbn [k_client] in H. unfold on_head, M_Suit.on_head, conn_over, set_k_client. cbn [k_parser k_ser k_client k_body k_pre k_world].
  set (hd := if wants_switch (p_req p) then _ else _). destruct hd as [[s0 pre0] version].
  rewrite unread_over, handler_over by apply req_quiet.
  pose proof (handler_same CS cparse max W _ (req_quiet wd (p_req p)) (p_req p) (body_init b (p_req p)) (client_unread c extra)) as K.
  destruct (run_handler cparse max (on_request wd (p_req p)) (p_req p) (body_init b (p_req p)) (client_unread c extra)) as [resp w1 r1 b1 c1|r1 b1 c1|]; cbn [hover same_out] in *.
  2: { cbn [end_of fst snd k_client]. apply sim_here; [apply kept_refl|exact H|]. split; reflexivity. }
  2: { cbn [end_of fst snd k_client]. apply sim_here; [apply kept_refl|exact H|]. split; reflexivity. }
  assert (K1 : kept c c1) by exact K. clear K.
  destruct (r_hijacked r1); [cbn [end_of fst snd k_client]; apply sim_here; [exact K1|exact H|]; split; reflexivity|].
  assert (W1 : cl_wres c1 = []) by (destruct K1; congruence).
  pose proof (response_sim version r1 (not_nil resp) s0 w c1 W1) as G.
  destruct (write_response version r1 (not_nil resp) s0 c1) as [[[res s2] c2] f2], (write_response version r1 (not_nil resp) s0 (over w c1)) as [[[res' s2'] c2'] f2'].
  assert (G0 : Sim w c c2 c2' (res' = res /\ s2' = s2) (res' = WClose \/ res' = WNet)).
  { eapply sim_next; [apply (sim_here w c c1 True False K1 H I)| |intros []]. intros w0 _ E. assert (w0 = w) as -> by (unfold over in E; congruence). exact G. }
  assert (W2 : cl_wres c2 = []) by apply G0. clear G.
  destruct G0 as [_ (ws & E & G)].
  destruct G as [(P & (-> & ->) & Ec)|(ws' & C & Eo & R)].
  - (* nothing failed *)
    assert (Done : forall q, Sim w c c2 c2' (res = res) q).
    { intros q. split; [exact W2|]. exists ws. split; [exact E|]. left. auto. }
    destruct res.
    + (* clearing *)
      unfold request_clear_full. subst c2'. rewrite discard_over. destruct (body_discard cparse max b1 c2) as [[x b3] c3] eqn:Ed. cbn [fst snd].
      pose proof (discard_loop_kept _ _ _ _ _ _ _ _ _ Ed) as K3.
      assert (W3 : cl_wres c3 = []) by (destruct K3; congruence).
      assert (Sd : Sim w c c3 (over (skipn (List.length ws) w) c3) True False).
      { split; [exact W3|]. exists ws. split; [destruct K3; congruence|]. left. auto. }
      destruct x as [[er|]|].
      * set (st2 := Conn (set_p_req r1 p) s2 c3 b3 pre0 w1).
        change (Conn (set_p_req r1 p) s2 (over (skipn (List.length ws) w) c3) b3 pre0 w1) with (conn_over (skipn (List.length ws) w) st2).
        cbn [end_of]. eapply sim_next; [exact Sd| |intros []]. intros w0 _ Ew. assert (w0 = skipn (List.length ws) w) as -> by (unfold over in Ew; congruence).
        eapply sim_weaken; [| |apply (close_sim EndClear _ st2 W3)]; auto.
      * cbn [end_of snd k_client]. eapply sim_weaken; [| |exact Sd]; [intros _; reflexivity|intros []].
      * cbn [end_of snd fst k_client]. eapply sim_weaken; [| |exact Sd]; [intros _; split; reflexivity|intros []].
    + cbn [end_of]. set (st2 := Conn (set_p_req r1 p) s2 c2 b1 pre0 w1). subst c2'.
      change (Conn (set_p_req r1 p) s2 (over (skipn (List.length ws) w) c2) b1 pre0 w1) with (conn_over (skipn (List.length ws) w) st2).
      eapply sim_next; [apply (Done False)| |intros []]. intros w0 _ Ew. assert (w0 = skipn (List.length ws) w) as -> by (unfold over in Ew; congruence).
      eapply sim_weaken; [| |apply (close_sim EndWrite _ st2 W2)]; auto.
    + cbn [end_of]. set (st2 := Conn (set_p_req r1 p) s2 c2 b1 pre0 w1). subst c2'.
      change (Conn (set_p_req r1 p) s2 (over (skipn (List.length ws) w) c2) b1 pre0 w1) with (conn_over (skipn (List.length ws) w) st2).
      eapply sim_next; [apply (Done False)| |intros []]. intros w0 _ Ew. assert (w0 = skipn (List.length ws) w) as -> by (unfold over in Ew; congruence).
      eapply sim_weaken; [| |apply (close_sim EndWrite _ st2 W2)]; auto.
    + cbn [end_of snd fst k_client]. eapply sim_weaken; [| |apply (Done False)]; [intros _; subst c2'; split; reflexivity|intros []].
    + cbn [end_of snd fst k_client]. eapply sim_weaken; [| |apply (Done False)]; [intros _; subst c2'; split; reflexivity|intros []].
  - (* a write failed *)
    set (st2' := Conn (set_p_req r1 p) s2' c2' b1 pre0 w1).
    assert (Hh : forall y : (ending * conn CS W) + conn CS W, match res' with WOk => y | WClose | WNet => inl (close_with EndWrite st2') | WPanic => inl (EndPanic, st2') | WStuck => inl (EndStuck, st2') end = inl (close_with EndWrite st2')) by (intros y; destruct R as [-> | ->]; reflexivity).
    rewrite Hh. clear Hh. cbn [end_of].
    assert (Gr : grows c2 (k_client (snd (end_of (match res with
        | WOk => let '(res2, r2, b2, c3) := request_clear_full cparse max r1 b1 c2 in
            match res2 with
            | Some None => inr (Conn (set_p_req r2 p) s2 c3 b2 pre0 w1)
            | Some (Some _) => inl (close_with EndClear (Conn (set_p_req r2 p) s2 c3 b2 pre0 w1))
            | None => inl (EndStuck, Conn (set_p_req r2 p) s2 c3 b2 pre0 w1)
            end
        | WClose | WNet => inl (close_with EndWrite (Conn (set_p_req r1 p) s2 c2 b1 pre0 w1))
        | WPanic => inl (EndPanic, Conn (set_p_req r1 p) s2 c2 b1 pre0 w1)
        | WStuck => inl (EndStuck, Conn (set_p_req r1 p) s2 c2 b1 pre0 w1) end))))).
    { destruct res; cbn [end_of fst snd k_client]; try (apply grows_refl; exact W2).
      - unfold request_clear_full. destruct (body_discard cparse max b1 c2) as [[x b3] c3] eqn:Ed. pose proof (discard_loop_kept _ _ _ _ _ _ _ _ _ Ed) as K3.
        assert (W3 : cl_wres c3 = []) by (destruct K3; congruence).
        destruct x as [[er|]|]; cbn [end_of fst snd k_client]; try (apply grows_kept; assumption).
        eapply grows_trans; [apply (grows_kept _ _ W2 K3)|].
        match goal with |- grows _ (k_client (snd (close_with _ ?X))) => pose proof (close_out EndClear X) as K4; cbn [k_client] in K4; apply grows_kept; [exact W3|exact K4] end.
      - match goal with |- grows _ (k_client (snd (close_with _ ?X))) => pose proof (close_out EndWrite X) as K4; cbn [k_client] in K4; apply grows_kept; [exact W2|exact K4] end.
      - match goal with |- grows _ (k_client (snd (close_with _ ?X))) => pose proof (close_out EndWrite X) as K4; cbn [k_client] in K4; apply grows_kept; [exact W2|exact K4] end. }
    destruct Gr as [Gw [more Gr]].
    split; [exact Gw|]. exists (ws ++ more). split; [rewrite Gr, E, app_assoc; reflexivity|]. right. exists ws'.
    split; [apply cuts_app; exact C|]. split; [|apply close_broke].
    destruct (close_out EndWrite st2') as [K4 _]. rewrite K4. exact Eo.
Qed.
Lemma bad_sim : forall e w st, cl_wres (k_client st) = [] -> SimEnd w st (on_bad_head st e) (on_bad_head (conn_over w st) e).
Proof.
  intros e w [p s c b pre wd] H. cbn [k_client] in H. unfold on_bad_head, M_Suit.on_bad_head, conn_over, set_k_client. cbn [k_parser k_ser k_client k_body k_pre k_world].
  rewrite handler_over by apply err_quiet.
  pose proof (handler_same CS cparse max W _ (err_quiet wd (p_req p) e) (p_req p) b c) as K.
  destruct (run_handler cparse max (on_error wd (p_req p) e) (p_req p) b c) as [resp w1 r1 b1 c1|r1 b1 c1|]; cbn [hover same_out] in *; unfold SimEnd.
  2: { cbn [fst snd k_client]. apply sim_here; [apply kept_refl|exact H|]. split; reflexivity. }
  2: { cbn [fst snd k_client]. apply sim_here; [apply kept_refl|exact H|]. split; reflexivity. }
  assert (W1 : cl_wres c1 = []) by (destruct K; congruence).
  pose proof (response_sim (r_proto r1) r1 (not_nil resp) s w c1 W1) as G.
  destruct (write_response (r_proto r1) r1 (not_nil resp) s c1) as [[[res s2] c2] f2], (write_response (r_proto r1) r1 (not_nil resp) s (over w c1)) as [[[res' s2'] c2'] f2'].
  assert (G0 : Sim w c c2 c2' (res' = res /\ s2' = s2) (res' = WClose \/ res' = WNet)).
  { eapply sim_next; [apply (sim_here w c c1 True False K H I)| |intros []]. intros w0 _ E. assert (w0 = w) as -> by (unfold over in E; congruence). exact G. }
  destruct G0 as [W2 (ws & E & G0)].
  destruct G0 as [(P & (-> & ->) & Ec)|(ws' & C & Eo & R)].
  - destruct res; cbn [fst snd k_client]; (split; [exact W2|]; exists ws; split; [exact E|]; left; split; [exact P|]; split; [subst c2'; split; reflexivity|exact Ec]).
  - assert (Wr : cl_wres (k_client (snd (match res with
      | WPanic => (EndPanic, Conn (set_p_req r1 p) s2 c2 b1 pre w1)
      | WStuck => (EndStuck, Conn (set_p_req r1 p) s2 c2 b1 pre w1)
      | _ => (EndParse, Conn (set_p_req r1 p) s2 c2 b1 pre w1) end))) = []) by (destruct res; exact W2).
    split; [exact Wr|]. exists ws. split; [destruct res; exact E|]. right. exists ws'. split; [exact C|].
    destruct R as [-> | ->]; cbn [fst snd k_client]; (split; [exact Eo|right; left; reflexivity]).
Qed.
Lemma conn_over_self : forall w c (st : conn CS W), set_k_client (over w c) st = conn_over w (set_k_client c st).
Proof. reflexivity. Qed.
Lemma serve_grows : forall n st, cl_wres (k_client st) = [] -> grows (k_client st) (k_client (snd (serve n st))).
Proof.
  induction n as [|n IH]; intros st H; [apply grows_refl; exact H|].
  cbn [M_Suit.serve]. destruct (client_read (k_client st)) as [[d e] c1] eqn:Er. pose proof (read_kept _ _ _ Er) as K.
  assert (W1 : cl_wres c1 = []) by (destruct K; congruence). pose proof (grows_kept _ _ H K) as G.
  assert (T : forall x, grows c1 (k_client (snd x)) -> grows (k_client st) (k_client (snd (x : ending * conn CS W)))) by (intros x Gx; eapply grows_trans; [exact G|exact Gx]).
  destruct e as [ne|].
  - apply T. pose proof (close_out EndRead (set_k_client c1 st)) as K2. apply grows_kept; [exact W1|exact K2].
  - destruct (parse cfg (k_parser (set_k_client c1 st)) d) as [p|p extra|p er| |].
    + apply T. apply (IH (set_k_parser p (set_k_client c1 st)) W1).
    + pose proof (head_sim [] (set_k_parser p (set_k_client c1 st)) extra W1) as Hs. apply sim_grows in Hs.
      destruct (on_head (set_k_parser p (set_k_client c1 st)) extra) as [x|st2] eqn:Eh; cbn [end_of snd] in Hs; [apply T; exact Hs|].
      apply T. eapply grows_trans; [exact Hs|]. apply IH. apply Hs.
    + apply T. pose proof (bad_sim er [] (set_k_parser p (set_k_client c1 st)) W1) as Hs. apply sim_grows in Hs. exact Hs.
    + apply T. apply grows_refl. exact W1.
    + apply T. apply grows_refl. exact W1.
Qed.
Theorem serve_sim : forall n w st, cl_wres (k_client st) = [] -> SimEnd w st (serve n st) (serve n (conn_over w st)).
Proof.
  induction n as [|n IH]; intros w st H.
  { cbn [M_Suit.serve]. unfold SimEnd, conn_over, set_k_client. destruct st as [p0 s0 c0 b0 pre0 wd0]. cbn [fst snd k_client k_parser k_ser k_body k_pre k_world] in *. apply sim_here; [apply kept_refl|exact H|]. split; reflexivity. }
  cbn [M_Suit.serve]. change (k_client (conn_over w st)) with (over w (k_client st)). rewrite read_over.
  destruct (client_read (k_client st)) as [[d e] c1] eqn:Er. cbn [fst snd]. pose proof (read_kept _ _ _ Er) as K.
  assert (W1 : cl_wres c1 = []) by (destruct K; congruence).
  set (st1 := set_k_client c1 st). change (set_k_client (over w c1) (conn_over w st)) with (conn_over w st1).
  assert (T : forall x x', SimEnd w st1 x x' -> SimEnd w st x x').
  { intros x x' Hx. unfold SimEnd in *. eapply sim_next; [apply (sim_here w (k_client st) c1 True False K H I)| |intros []].
    intros w0 _ E. assert (w0 = w) as -> by (unfold over in E; congruence). exact Hx. }
  apply T. clear T. destruct e as [ne|]; [apply close_sim; exact W1|].
  change (k_parser (conn_over w st1)) with (k_parser st1). destruct (parse cfg (k_parser st1) d) as [p|p extra|p er| |].
  - change (set_k_parser p (conn_over w st1)) with (conn_over w (set_k_parser p st1)). apply (IH w (set_k_parser p st1) W1).
  - change (set_k_parser p (conn_over w st1)) with (conn_over w (set_k_parser p st1)).
    set (st2 := set_k_parser p st1). pose proof (head_sim w st2 extra W1) as G.
    destruct (on_head st2 extra) as [x|y] eqn:E1, (on_head (conn_over w st2) extra) as [x'|y'] eqn:E2; cbn [end_of snd fst] in G.
    + exact G.
    + destruct G as [_ (ws & _ & [(_ & [] & _)|(? & _ & _ & [])])].
    + (* the healthy connection goes on *)
      unfold SimEnd. eapply sim_next; [exact G|intros w1 []|]. intros Bk. split; [exact Bk|].
      pose proof (serve_grows n y (proj1 G)) as [Gw Gr]. split; [exact Gw|]. split; [reflexivity|exact Gr].
    + unfold SimEnd. eapply sim_next; [exact G| |intros []].
      intros w1 -> Ec. cbn [set_k_client k_client] in Ec. 
      assert (E3 : set_k_client (k_client y') y = conn_over w1 y) by (unfold conn_over; congruence).
      rewrite E3. apply IH. apply G.
  - change (set_k_parser p (conn_over w st1)) with (conn_over w (set_k_parser p st1)). apply (bad_sim er w (set_k_parser p st1) W1).
  - unfold SimEnd. cbn [fst snd]. apply sim_here; [apply kept_refl|exact W1|]. split; reflexivity.
  - unfold SimEnd. cbn [fst snd]. apply sim_here; [apply kept_refl|exact W1|]. split; reflexivity.
Qed.
End Served.
Lemma cuts_prefix : forall w ws ws', Cuts w ws ws' -> exists rest, concat ws = concat ws' ++ rest.
Proof.
  intros w ws ws' H. induction H as [k w d more|w d ws ws' H [rest IH]].
  - exists (skipn k d ++ concat more). cbn [concat]. rewrite app_nil_r, app_assoc, firstn_skipn. reflexivity.
  - exists rest. cbn [concat]. rewrite IH, app_assoc. reflexivity.
Qed.
