(* Lemmas: whatever happens on a connection, what was sent stays sent; Recover changes nothing until
   the first panic. *)
From Verif Require Import M_Base M_Status M_Method M_Proto M_KeyValue M_Query M_Request M_Parser M_Client M_Body
  M_Response M_Serializer M_Suit M_Router M_Middleware M_Bundled S_Recovered L_Base L_Conn.

Definition grown (c c' : client) : Prop := exists more, cl_out c' = cl_out c ++ more.
Lemma grown_refl : forall c, grown c c. Proof. intros c. exists []. symmetry. apply app_nil_r. Qed.
Lemma grown_trans : forall a b c, grown a b -> grown b c -> grown a c.
Proof. intros a b c (m & E) (n & F). exists (m ++ n). rewrite F, E, app_assoc. reflexivity. Qed.
Lemma grown_kept : forall c c', kept c c' -> grown c c'.
Proof. intros c c' (E & _). exists []. rewrite E. symmetry. apply app_nil_r. Qed.
Lemma grown_write : forall c d ok c', client_write c d = (ok, c') -> grown c c'.
Proof. intros c d ok c' H. unfold client_write in H. destruct (cl_wres c) as [|[k|] w]; injection H as <- <-; eexists; reflexivity. Qed.
Lemma grown_plain : forall ev mem c res m c' ev', write_plain ev mem c = (res, m, c', ev') -> grown c c'.
Proof.
  induction ev as [|[d e] ev IH]; intros mem c res m c' ev' H; cbn [write_plain] in H; [injection H as <- <- <- <-; apply grown_refl|].
  destruct e as [[|]|]; try (injection H as <- <- <- <-; apply grown_refl).
  destruct (_ <? _)%nat; [injection H as <- <- <- <-; apply grown_refl|].
  destruct (client_write c _) as [ok c1] eqn:E. apply grown_write in E. destruct ok; [|injection H as <- <- <- <-; exact E].
  eapply grown_trans; [exact E|]. eapply IH. exact H.
Qed.
Lemma grown_chunked : forall ev mem c res m c' ev', write_chunked ev mem c = (res, m, c', ev') -> grown c c'.
Proof.
  induction ev as [|[d e] ev IH]; intros mem c res m c' ev' H; cbn [write_chunked] in H; [injection H as <- <- <- <-; apply grown_refl|].
  assert (Aft : forall mm cc, match e with None => write_chunked ev mm cc
                   | Some REof => let '(ok, c) := client_write cc chunked_finalizer in ((if ok then WOk else WNet), mm, c, ev)
                   | Some RFail => (WClose, mm, cc, ev) end = (res, m, c', ev') -> grown cc c').
  { intros mm cc X. destruct e as [[|]|].
    - destruct (client_write cc _) as [ok c3] eqn:E. apply grown_write in E. injection X as <- <- <- <-. exact E.
    - injection X as <- <- <- <-. apply grown_refl.
    - eapply IH. exact X. }
  destruct (0 <? List.length d)%nat; [|apply Aft in H; exact H].
  destruct (_ <? _)%nat; [injection H as <- <- <- <-; apply grown_refl|].
  destruct (_ <? _)%nat; [injection H as <- <- <- <-; apply grown_refl|].
  match type of H with context [client_write c ?x] => destruct (client_write c x) as [ok c3] eqn:E end. apply grown_write in E.
  destruct ok; [|injection H as <- <- <- <-; exact E]. eapply grown_trans; [exact E|]. eapply Aft. exact H.
Qed.
Lemma grown_response : forall p r f s c res s' c' f', write_response p r f s c = (res, s', c', f') -> grown c c'.
Proof.
  intros p r f s c res s' c' f' H. unfold write_response in H. destruct (f_att f) as [a|].
  - unfold send_attachment in H. cbv zeta in H.
    match type of H with context [client_write c ?x] => destruct (client_write c x) as [ok c1] eqn:E end. apply grown_write in E.
    destruct ok; cbn [negb] in H; [|injection H as <- <- <- <-; exact E].
    destruct (method_eqb (r_method r) HEAD); [injection H as <- <- <- <-; exact E|]. eapply grown_trans; [exact E|].
    destruct (0 <? at_size a)%Z.
    + destruct (write_plain _ _ c1) as [[[w m] c2] ev] eqn:F. apply grown_plain in F. destruct w; injection H as <- <- <- <-; exact F.
    + destruct (write_chunked _ _ c1) as [[[w m] c2] ev] eqn:F. apply grown_chunked in F. destruct w; injection H as <- <- <- <-; exact F.
  - cbv zeta in H. 
    repeat match type of H with
    | context [client_write c ?x] => let E := fresh in destruct (client_write c x) as [ok c1] eqn:E; apply grown_write in E
    | (match ?b with _ => _ end) = _ => destruct b
    end; injection H as <- <- <- <-; try assumption; apply grown_refl.
Qed.

Section Serve.
Variable CS : Type.
Variable cparse : CS -> bytes -> bool -> CS * (bytes * bytes * option cerr).
Variable max : Z.
Variable cfg : hcfg.
Variable W : Type.
Notation conn := (M_Suit.conn CS W).

Definition grown_by (c : client) (x : hres CS W) : Prop := match x with HDone _ _ _ _ c' | HPanic _ _ c' => grown c c' | HStuck => True end.
Lemma grown_by_trans : forall c c' x, grown c c' -> grown_by c' x -> grown_by c x.
Proof. intros c c' [resp w r b c1|r b c1|] H K; cbn in *; try exact I; eapply grown_trans; eassumption. Qed.
Lemma handler_grown : forall (h : hprog W) r (b : body CS) c, grown_by c (run_handler cparse max h r b c).
Proof.
  induction h as [resp w|op k IH|g k IH|k IH|k IH|d k IH| |p IHp q IHq k IHk|k IH]; intros r b c; cbn [run_handler].
  - apply grown_refl.
  - destruct (body_op cparse max op b c) as [[o b1] c1] eqn:E. apply op_kept, grown_kept in E. destruct (stops o) as [[|]|]; [exact E|exact I|]. eapply grown_by_trans; [exact E|apply IH].
  - apply IH.
  - destruct (body_discard cparse max b c) as [[x b1] c1] eqn:E. apply discard_loop_kept, grown_kept in E. destruct x as [[e|]|]; [| |exact I]; (eapply grown_by_trans; [exact E|apply IH]).
  - destruct (client_read c) as [x c1] eqn:E. apply read_kept, grown_kept in E. eapply grown_by_trans; [exact E|apply IH].
  - destruct (client_write c d) as [ok c1] eqn:E. apply grown_write in E. eapply grown_by_trans; [exact E|apply IH].
  - apply grown_refl.
  - specialize (IHp r b c). destruct (run_handler cparse max p r b c) as [resp w r1 b1 c1|r1 b1 c1|]; [eapply grown_by_trans; [exact IHp|apply IHk]| |exact I].
    specialize (IHq r1 b1 c1). destruct (run_handler cparse max q r1 b1 c1) as [resp w r2 b2 c2|r2 b2 c2|]; cbn [grown_by] in *; [|eapply grown_trans; eassumption|exact I].
    eapply grown_by_trans; [|apply IHk]. eapply grown_trans; eassumption.
  - apply IH.
Qed.

Section One.
Variable on_request : W -> request -> hprog W.
Variable on_error : W -> request -> http_error -> hprog W.
Lemma close_grown : forall e (st : conn), grown (k_client st) (k_client (snd (close_with cparse max on_error e st))).
Proof.
  intros e st. unfold close_with.
  pose proof (handler_grown (on_error (k_world st) (p_req (k_parser st)) ErrCloseConnection) (p_req (k_parser st)) (k_body st) (k_client st)) as K.
  destruct (run_handler _ _ _ _ _ _); cbn [snd k_client grown_by] in *; [exact K|apply grown_refl|apply grown_refl].
Qed.
Lemma bad_grown : forall (st : conn) e, grown (k_client st) (k_client (snd (on_bad_head cparse max on_error st e))).
Proof.
  intros st e. unfold on_bad_head.
  pose proof (handler_grown (on_error (k_world st) (p_req (k_parser st)) e) (p_req (k_parser st)) (k_body st) (k_client st)) as K.
  destruct (run_handler _ _ _ _ _ _) as [resp w r b c|r b c|]; cbn [snd k_client grown_by] in *; [|apply grown_refl|apply grown_refl].
  destruct (write_response _ _ _ _ _) as [[[res s] c2] f] eqn:E. apply grown_response in E. pose proof (grown_trans _ _ _ K E) as G. destruct res; exact G.
Qed.
Lemma head_grown : forall (st : conn) extra, grown (k_client st) (match on_head cparse max on_request on_error st extra with inl fin => k_client (snd fin) | inr st1 => k_client st1 end).
Proof.
  intros st extra. unfold on_head. cbv zeta.
  match goal with |- context [if wants_switch ?r then ?A else ?B] => set (X := if wants_switch r then A else B) in * end; clearbody X; destruct X as [[s pre] version].
  pose proof (handler_grown (on_request (k_world st) (p_req (k_parser st))) (p_req (k_parser st)) (body_init (k_body st) (p_req (k_parser st))) (client_unread (k_client st) extra)) as K.
  destruct (run_handler _ _ _ _ _ _) as [resp w r b c|r b c|]; cbn [snd k_client grown_by] in *; [|apply grown_refl|apply grown_refl].
  assert (K' : grown (k_client st) c) by exact K. destruct (r_hijacked r); [exact K'|].
  destruct (write_response _ _ _ _ _) as [[[res s'] c2] f] eqn:E. apply grown_response in E. pose proof (grown_trans _ _ _ K' E) as G.
  destruct res; try exact G; try (eapply grown_trans; [exact G|]; apply close_grown).
  destruct (request_clear_full cparse max r b c2) as [[[res2 r2] b2] c3] eqn:F.
  assert (G2 : grown c2 c3).
  { unfold request_clear_full in F. destruct (body_discard cparse max b c2) as [[x b3] c4] eqn:D. apply discard_loop_kept, grown_kept in D. destruct x as [[|]|]; injection F as <- <- <- <-; exact D. }
  pose proof (grown_trans _ _ _ G G2) as G3. destruct res2 as [[er|]|]; [eapply grown_trans; [exact G3|]; apply close_grown|exact G3|exact G3].
Qed.
Lemma serve_grown : forall fuel (st : conn), grown (k_client st) (k_client (snd (serve cparse max cfg on_request on_error fuel st))).
Proof.
  induction fuel as [|n IH]; intros st; cbn [serve]; [apply grown_refl|].
  destruct (client_read (k_client st)) as [[data e] c1] eqn:E. apply read_kept, grown_kept in E.
  destruct e as [e|]; [eapply grown_trans; [exact E|]; apply (close_grown EndRead (set_k_client c1 st))|].
  destruct (parse cfg _ data) as [p|p extra|p err| |]; try exact E.
  - eapply grown_trans; [exact E|]. apply (IH (set_k_parser p (set_k_client c1 st))).
  - pose proof (head_grown (set_k_parser p (set_k_client c1 st)) extra) as K.
    destruct (on_head _ _ _ _ _ _) as [fin|st1]; [eapply grown_trans; [exact E|exact K]|]. eapply grown_trans; [exact E|]. eapply grown_trans; [exact K|]. apply IH.
  - eapply grown_trans; [exact E|]. apply (bad_grown (set_k_parser p (set_k_client c1 st)) err).
Qed.
End One.

Variables on_request on_request' : W -> request -> hprog W.
Variables on_error on_error' : W -> request -> http_error -> hprog W.
Hypothesis same_request : forall w r, Unless_panic cparse max (on_request w r) (on_request' w r).
Hypothesis same_error : forall w r e, Unless_panic cparse max (on_error w r e) (on_error' w r e).

Definition related (a b : ending * conn) : Prop := b = a \/ (fst a = EndPanic /\ SentFirst (snd a) (snd b)).
Lemma close_related : forall e (st : conn), related (close_with cparse max on_error e st) (close_with cparse max on_error' e st).
Proof.
  intros e st. destruct (same_error (k_world st) (p_req (k_parser st)) ErrCloseConnection (p_req (k_parser st)) (k_body st) (k_client st)) as [E|(r1 & b1 & c1 & E)].
  - left. unfold close_with. rewrite E. reflexivity.
  - right. pose proof (close_grown on_error' e st) as G. unfold close_with in *. rewrite E. cbn [fst snd]. split; [reflexivity|exact G].
Qed.
Lemma bad_related : forall (st : conn) e, related (on_bad_head cparse max on_error st e) (on_bad_head cparse max on_error' st e).
Proof.
  intros st e. destruct (same_error (k_world st) (p_req (k_parser st)) e (p_req (k_parser st)) (k_body st) (k_client st)) as [E|(r1 & b1 & c1 & E)].
  - left. unfold on_bad_head. rewrite E. reflexivity.
  - right. pose proof (bad_grown on_error' st e) as G. unfold on_bad_head in *. rewrite E. cbn [fst snd]. split; [reflexivity|exact G].
Qed.
Definition related_head (a b : (ending * conn) + conn) : Prop :=
  match a, b with
  | inl x, inl y => related x y
  | inl x, inr st => fst x = EndPanic /\ SentFirst (snd x) st
  | inr st, inr st' => st' = st
  | inr _, inl _ => False
  end.
Lemma head_related : forall (st : conn) extra, related_head (on_head cparse max on_request on_error st extra) (on_head cparse max on_request' on_error' st extra).
Proof.
  intros st extra. pose proof (head_grown on_request' on_error' st extra) as G. unfold on_head in *. cbv zeta in *.
  match goal with |- context [if wants_switch ?r then ?A else ?B] => set (X := if wants_switch r then A else B) in * end; clearbody X; destruct X as [[s pre] version].
  destruct (same_request (k_world st) (p_req (k_parser st)) (p_req (k_parser st)) (body_init (k_body st) (p_req (k_parser st))) (client_unread (k_client st) extra)) as [E|(r1 & b1 & c1 & E)].
  - rewrite E in *. destruct (run_handler cparse max (on_request _ _) _ _ _) as [resp w r b c|r b c|]; [|left; reflexivity|left; reflexivity].
    destruct (r_hijacked r); [left; reflexivity|]. destruct (write_response _ _ _ _ _) as [[[res s'] c2] f].
    destruct res; try (left; reflexivity); try apply close_related.
    destruct (request_clear_full cparse max r b c2) as [[[res2 r2] b2] c3]. destruct res2 as [[er|]|]; [apply close_related|reflexivity|left; reflexivity].
  - rewrite E. match goal with |- related_head _ ?Y => destruct Y as [fin|st1] end; cbn [related_head] in *; [right|]; split; try reflexivity; exact G.
Qed.
Theorem until_panic : forall fuel (st : conn), related (serve cparse max cfg on_request on_error fuel st) (serve cparse max cfg on_request' on_error' fuel st).
Proof.
  induction fuel as [|n IH]; intros st; cbn [serve]; [left; reflexivity|].
  destruct (client_read (k_client st)) as [[data e] c1]. destruct e as [e|]; [apply close_related|].
  destruct (parse cfg _ data) as [p|p extra|p err| |]; try (left; reflexivity); [apply IH| |apply bad_related].
  pose proof (head_related (set_k_parser p (set_k_client c1 st)) extra) as K.
  destruct (on_head cparse max on_request on_error _ _) as [fin|st1], (on_head cparse max on_request' on_error' _ _) as [fin'|st1']; cbn [related_head] in K.
  - exact K.
  - right. destruct K as [K1 (m & K2)]. split; [exact K1|]. destruct (serve_grown on_request' on_error' n st1') as (m2 & E). exists (m ++ m2). rewrite E, K2, app_assoc. reflexivity.
  - destruct K.
  - subst st1'. apply IH.
Qed.
End Serve.

Lemma recovering_unless : forall CS cparse max W (next : handler W) w r, Unless_panic (CS := CS) cparse max (next w r) (recovering next w r).
Proof.
  intros CS cparse max W next w r r0 b c. unfold recovering. cbn [run_handler]. destruct (run_handler cparse max (next w r) r0 b c) as [resp w1 r1 b1 c1|r1 b1 c1|]; [left; reflexivity|right; eauto|left; reflexivity].
Qed.
