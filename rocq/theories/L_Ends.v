(* Lemmas: serving a connection comes to an end. *)
From Verif Require Import M_Base M_Status M_Method M_Proto M_Uri M_KeyValue M_Query M_Request M_Parser M_Client M_Body
  M_Response M_Serializer M_Suit S_Chunk S_Head S_Body S_Conn S_Ends L_Base L_Safe L_Conn L_Conn2.

Lemma step_done_shorter : forall cfg l p d p' extra, step cfg l p d = Ret (RDone p' extra) -> (List.length extra < List.length d)%nat.
Proof.
  intros cfg l p d p' extra H. destruct l; cbn [step] in H.
  - unfold step_method in H. destruct (cut d SP) as [[m rest]|]; [|destruct (buf_append _ _); discriminate].
    assert (C : forall p mv, match mv with [] => Ret (RErr p ErrBadRequest) | _ => let mm := method_parse mv in let p := set_p_req (set_method mm (p_req p)) p in
      match mm with MUnknown => Ret (RErr p ErrMethodNotImplemented) | _ => Goto ePath p rest end end <> Ret (RDone p' extra)).
    { intros p0 mv E. destruct mv; [discriminate E|]. cbv zeta in E. destruct (method_parse _) in E; discriminate E. }
    destruct (buf_seglen _ =? 0)%Z; [exfalso; exact (C _ _ H)|]. destruct (buf_append _ _) as [b|]; [|discriminate]. unfold buf_finish in H. exfalso; exact (C _ _ H).
  - unfold step_path in H. destruct (cut d LF) as [[m rest]|]; [|destruct (buf_append _ _); discriminate].
    destruct (buf_append _ _) as [b|]; [|discriminate]. unfold buf_finish in H. destruct (request_line _ _) as [r|p1] eqn:E; [|discriminate]. injection H as ->.
    exfalso. unfold request_line in E. destruct (cut_last _ SP) as [[rp rt]|]; [|discriminate]. destruct (last_byte rt); [|discriminate].
    destruct (cut rp x3f) as [[pa q]|].
    + destruct pa; [discriminate|]. destruct (uri_decode _); [|discriminate]. cbv zeta in E. destruct (proto_from_bytes _); discriminate.
    + destruct rp; [discriminate|]. destruct (uri_decode _); [|discriminate]. cbv zeta in E. destruct (proto_from_bytes _); discriminate.
  - unfold step_header_key in H. destruct d as [|c d]; [discriminate|]. destruct (Byte.eqb c LF); [injection H as _ <-; cbn [List.length]; lia|].
    destruct (Byte.eqb c CR); [discriminate|]. destruct (cut _ x3a) as [[k rest]|]; [|destruct (buf_append _ _); discriminate].
    destruct (buf_append _ _) as [b|]; [|discriminate]. unfold buf_finish in H. cbv zeta in H. destruct (_ >? _)%Z; [discriminate|]. destruct (key_is _ _); discriminate.
  - unfold step_content_length in H. destruct (clen_loop _ d) as [n [d2|]]; [|discriminate]. destruct d2 as [|c d2]; [discriminate|].
    destruct (Byte.eqb c CR); [discriminate|]. destruct (Byte.eqb c LF); discriminate.
  - unfold step_content_length_cr in H. destruct d as [|c d]; [discriminate|]. destruct (Byte.eqb c LF); discriminate.
  - unfold step_header_value in H. destruct (cut d LF) as [[v rest]|].
    + destruct (buf_append _ _) as [b|]; [|discriminate]. destruct (_ >? _)%Z; [discriminate|]. unfold buf_finish in H. cbv zeta in H. destruct (last_byte _); discriminate.
    + destruct (buf_append _ _) as [b|]; [|discriminate]. destruct (_ >? _)%Z; discriminate.
  - unfold step_crlfcr in H. destruct d as [|c d]; [discriminate|]. destruct (Byte.eqb c LF); [injection H as _ <-; cbn [List.length]; lia|discriminate].
Qed.
Lemma run_done_shorter : forall cfg fuel l p d p' extra, run cfg fuel l p d = RDone p' extra -> (List.length extra < List.length d)%nat.
Proof.
  intros cfg. induction fuel as [|f IH]; intros l p d p' extra H; cbn [run] in H; [discriminate|]. destruct (step cfg l p d) as [l1 p1 d1|r] eqn:E.
  - apply step_shrinks in E. apply IH in H. lia.
  - subst r. eapply step_done_shorter. exact E.
Qed.
Lemma parse_done_shorter : forall cfg p d p' extra, parse cfg p d = RDone p' extra -> (List.length extra < List.length d)%nat.
Proof. intros cfg p d p' extra H. eapply run_done_shorter. exact H. Qed.

Lemma read_amount : forall c d e c1, client_read c = ((d, e), c1) -> (amount c1 <= amount c)%nat /\
  (e = None -> cl_pending c1 = [] /\ (amount c1 + List.length d <= amount c)%nat /\ (amount c1 < amount c)%nat).
Proof.
  intros c d e c1 H. unfold client_read in H. unfold amount, list_sum. destruct (cl_pending c) as [|x p] eqn:Ep.
  - destruct (cl_net c) as [|[d0 e0] net] eqn:En.
    + injection H as <- <- <-. rewrite Ep, En. split; [lia|discriminate].
    + injection H as <- <- <-. cbn [map fold_right fst List.length cl_net cl_pending]. split; [lia|]. intros ->. split; [reflexivity|]. lia.
  - injection H as <- <- <-. cbn [map fold_right fst List.length cl_net cl_pending]. split; [lia|]. intros _. split; [reflexivity|]. lia.
Qed.
Lemma net_size_sum : forall net, net_size net = list_sum (map (fun ev => S (List.length (fst ev))) net).
Proof. induction net as [|[d e] net IH]; [reflexivity|]. change (S (List.length d + net_size net) = S (List.length d) + list_sum (map (fun ev => S (List.length (fst ev))) net))%nat. rewrite <- IH. reflexivity. Qed.
Lemma loop_fuel_amount : forall c, loop_fuel c = S (S (amount c)).
Proof. intros c. unfold loop_fuel, amount. rewrite net_size_sum. reflexivity. Qed.

Section Ends.
Variable CS : Type.
Variable cparse : CS -> bytes -> bool -> CS * (bytes * bytes * option cerr).
Hypothesis moves : DecoderMoves cparse.
Variable max : Z.

Lemma retrieve_amount : forall (b : body CS) c d e b' c', retrieve cparse max b c = ((d, e), b', c') ->
  (amount c' <= amount c)%nat /\ (e = None -> (amount c' < amount c)%nat).
Proof.
  intros b c d e b' c' H. unfold retrieve in H. destruct (bd_eof b); [injection H as <- <- <- <-; split; [lia|discriminate]|].
  assert (U : forall c2 x, cl_pending c2 = [] -> amount (client_unread c2 x) = (amount c2 + List.length x)%nat).
  { intros c2 x E. unfold amount. cbn [client_unread cl_pending cl_net]. rewrite E. cbn [List.length]. lia. }
  destruct (bd_chunked b).
  - destruct (chunked_read cparse max b c) as [[y b1] c1] eqn:E. injection H as -> <- <-. unfold chunked_read in E.
    destruct (client_read c) as [[data ne] c2] eqn:R. destruct (read_amount _ _ _ _ R) as [A1 A2]. destruct ne; [injection E as <- <- <- <-; split; [exact A1|discriminate]|].
    destruct (A2 eq_refl) as (P2 & A3 & A4). destruct (cparse _ _ _) as [cs' [[chunk extra] ce]] eqn:Ec. pose proof (moves _ _ _ _ _ _ _ Ec) as M. destruct ce as [[|]|].
    + destruct (_ || _); injection E as <- <- <- <-; (split; [|discriminate]); [exact A1|]. rewrite U by exact P2. lia.
    + injection E as <- <- <- <-. split; [exact A1|discriminate].
    + destruct (_ || _); injection E as <- <- <- <-; [split; [exact A1|discriminate]|]. rewrite U by exact P2. destruct M as [M|[-> ->]]; cbn [List.length] in *; split; lia.
  - destruct (plain_read max b c) as [[y b1] c1] eqn:E. injection H as -> <- <-. unfold plain_read in E.
    destruct (bd_left b =? 0)%Z; [injection E as <- <- <- <-; split; [lia|discriminate]|].
    destruct (client_read c) as [[data ne] c2] eqn:R. destruct (read_amount _ _ _ _ R) as [A1 A2]. destruct ne; [injection E as <- <- <- <-; split; [exact A1|discriminate]|].
    destruct (A2 eq_refl) as (P2 & A3 & A4). destruct (_ >? _)%Z; [injection E as <- <- <- <-; split; [exact A1|discriminate]|].
    destruct (_ >=? _)%Z; injection E as <- <- <- <-.
    + split; [|discriminate]. rewrite U by exact P2. rewrite skipn_length. lia.
    + split; [exact A1|]. intros _. exact A4.
Qed.
Lemma bytes_loop_ends : forall n (b : body CS) c, (amount c < n)%nat -> exists x b' c', bytes_loop cparse max n b c = (x, b', c') /\ x <> BRStuck /\ (amount c' <= amount c)%nat.
Proof.
  induction n as [|n IH]; intros b c Hn; [lia|]. cbn [bytes_loop]. destruct (retrieve cparse max b c) as [[[d e] b1] c1] eqn:R. destruct (retrieve_amount _ _ _ _ _ _ R) as [A1 A2].
  destruct e as [[| | |]|]; try (do 3 eexists; split; [reflexivity|]; split; [discriminate|exact A1]).
  specialize (A2 eq_refl). destruct (IH (set_full (bd_full b1 ++ d) (Z.max (bd_cap b1) (len (bd_full b1 ++ d))) b1) c1 ltac:(lia)) as (x & b' & c' & H1 & H2 & H3).
  exists x, b', c'. split; [exact H1|]. split; [exact H2|lia].
Qed.
Lemma callback_loop_ends : forall n cb seen (b : body CS) c, (amount c < n)%nat ->
  exists ps x b' c', callback_loop cparse max n cb seen b c = (ps, x, b', c') /\ x <> Some None /\ (amount c' <= amount c)%nat.
Proof.
  induction n as [|n IH]; intros cb seen b c Hn; [lia|]. cbn [callback_loop]. destruct (retrieve cparse max b c) as [[[d e] b1] c1] eqn:R. destruct (retrieve_amount _ _ _ _ _ _ R) as [A1 A2].
  destruct e as [[| | |]|]; try (do 4 eexists; split; [reflexivity|]; split; [try destruct (cb _); discriminate|exact A1]).
  specialize (A2 eq_refl). destruct (cb (seen ++ [d])); [|do 4 eexists; split; [reflexivity|]; split; [discriminate|exact A1]].
  destruct (IH cb (seen ++ [d]) b1 c1 ltac:(lia)) as (ps & x & b' & c' & H1 & H2 & H3). exists ps, x, b', c'. split; [exact H1|]. split; [exact H2|lia].
Qed.
Lemma discard_loop_ends : forall n (b : body CS) c, (amount c < n)%nat -> exists x b' c', discard_loop cparse max n b c = (Some x, b', c') /\ (amount c' <= amount c)%nat.
Proof.
  induction n as [|n IH]; intros b c Hn; [lia|]. cbn [discard_loop]. destruct (bd_eof b); [do 3 eexists; split; [reflexivity|lia]|].
  destruct (retrieve cparse max b c) as [[[d e] b1] c1] eqn:R. destruct (retrieve_amount _ _ _ _ _ _ R) as [A1 A2].
  destruct e as [[| | |]|]; try (do 3 eexists; split; [reflexivity|exact A1]).
  specialize (A2 eq_refl). destruct (IH b1 c1 ltac:(lia)) as (x & b' & c' & H1 & H2). exists x, b', c'. split; [exact H1|lia].
Qed.
Lemma discard_ends : forall (b : body CS) c, exists x b' c', body_discard cparse max b c = (Some x, b', c') /\ (amount c' <= amount c)%nat.
Proof. intros b c. unfold body_discard. apply discard_loop_ends. rewrite loop_fuel_amount. lia. Qed.
Lemma op_ends : forall op (b : body CS) c, exists o b' c', body_op cparse max op b c = (o, b', c') /\ stops o <> Some false /\ (amount c' <= amount c)%nat.
Proof.
  intros op b c. destruct op; cbn [body_op].
  - unfold body_bytes. destruct (bd_eof b); [do 3 eexists; split; [reflexivity|]; split; [discriminate|lia]|]. cbv zeta.
    destruct (_ && _ && _); [do 3 eexists; split; [reflexivity|]; split; [discriminate|lia]|].
    match goal with |- context [bytes_loop cparse max _ ?b1 _] => destruct (bytes_loop_ends (loop_fuel c) b1 c ltac:(rewrite loop_fuel_amount; lia)) as (x & b' & c' & -> & H2 & H3) end.
    do 3 eexists. split; [reflexivity|]. split; [destruct x; cbn; congruence|exact H3].
  - destruct (retrieve cparse max b c) as [[[d e] b1] c1] eqn:R. destruct (retrieve_amount _ _ _ _ _ _ R) as [A1 _]. do 3 eexists. split; [reflexivity|]. split; [discriminate|exact A1].
  - unfold body_read. destruct (bd_pending b); [destruct (bd_error b)|]; try (do 3 eexists; split; [reflexivity|]; split; [discriminate|lia]).
    destruct (retrieve cparse max b c) as [[[d e] b1] c1] eqn:R. destruct (retrieve_amount _ _ _ _ _ _ R) as [A1 _]. do 3 eexists. split; [reflexivity|]. split; [discriminate|exact A1].
  - unfold body_callback. destruct (callback_loop_ends (loop_fuel c) cb [] b c ltac:(rewrite loop_fuel_amount; lia)) as (ps & x & b' & c' & -> & H2 & H3).
    do 3 eexists. split; [reflexivity|]. split; [cbn; destruct x as [[|]|]; congruence|exact H3].
  - destruct (discard_ends b c) as (x & b' & c' & -> & H). do 3 eexists. split; [reflexivity|]. split; [discriminate|exact H].
Qed.
Lemma write_amount : forall c d ok c', client_write c d = (ok, c') -> amount c' = amount c.
Proof. intros c d ok c' H. apply write_input in H. destruct H as [[H1 H2] _]. unfold amount. rewrite H1, H2. reflexivity. Qed.

Section Handlers.
Variable W : Type.
Lemma handler_ends : forall (ok : option fields -> Prop) (h : hprog W), Answering ok h -> forall r (b : body CS) c,
  match run_handler cparse max h r b c with
  | HDone resp _ _ _ c' => ok resp /\ (amount c' <= amount c)%nat
  | HPanic _ _ c' => (amount c' <= amount c)%nat
  | HStuck => False
  end.
Proof.
  intros ok h H. induction H as [ok resp w H|ok op k H IH|ok g k H IH|ok k H IH|ok k H IH|ok d k H IH|ok|ok mid p q k Hp IHp Hq IHq Hk IHk|ok k H IH]; intros r b c; cbn [run_handler].
  - split; [exact H|lia].
  - destruct (op_ends op b c) as (o & b' & c' & -> & S1 & A1). destruct (stops o) as [[|]|]; [exact A1|congruence|]. specialize (IH o r b' c').
    destruct (run_handler cparse max (k o) r b' c'); [destruct IH as [I1 I2]; split; [exact I1|]| |exact IH]; lia.
  - apply IH.
  - destruct (discard_ends b c) as (x & b' & c' & -> & A1). destruct x as [e|].
    + specialize (IH (Some e) r b' c'). destruct (run_handler cparse max (k (Some e)) r b' c'); [destruct IH as [I1 I2]; split; [exact I1|]| |exact IH]; lia.
    + specialize (IH None (set_hijacked true r) b' c'). destruct (run_handler cparse max (k None) (set_hijacked true r) b' c'); [destruct IH as [I1 I2]; split; [exact I1|]| |exact IH]; lia.
  - destruct (client_read c) as [[d e] c'] eqn:R. destruct (read_amount _ _ _ _ R) as [A1 _]. specialize (IH (d, e) r b c').
    destruct (run_handler cparse max (k (d, e)) r b c'); [destruct IH as [I1 I2]; split; [exact I1|]| |exact IH]; lia.
  - destruct (client_write c d) as [x c'] eqn:R. apply write_amount in R. specialize (IH x r b c').
    destruct (run_handler cparse max (k x) r b c'); [destruct IH as [I1 I2]; split; [exact I1|]| |exact IH]; lia.
  - lia.
  - specialize (IHp r b c). destruct (run_handler cparse max p r b c) as [resp w r' b' c'|r' b' c'|]; [| |exact IHp].
    + destruct IHp as [I1 I2]. specialize (IHk resp w I1 r' b' c'). destruct (run_handler cparse max (k resp w) r' b' c'); [destruct IHk as [K1 K2]; split; [exact K1|]| |exact IHk]; lia.
    + specialize (IHq r' b' c'). destruct (run_handler cparse max q r' b' c') as [resp w r2 b2 c2|r2 b2 c2|]; [|lia|exact IHq].
      destruct IHq as [I1 I2]. specialize (IHk resp w I1 r2 b2 c2). destruct (run_handler cparse max (k resp w) r2 b2 c2); [destruct IHk as [K1 K2]; split; [exact K1|]| |exact IHk]; lia.
  - apply IH.
Qed.
Lemma plain_ends : forall ev mem c, (exists d e, In (d, Some e) ev) -> fst (fst (fst (write_plain ev mem c))) <> WStuck.
Proof.
  induction ev as [|[d e] ev IH]; intros mem c (d0 & e0 & H); [destruct H|]. cbn [write_plain].
  destruct e as [[|]|]; try discriminate. destruct H as [H|H]; [discriminate H|].
  destruct (_ <? _)%nat; [discriminate|]. destruct (client_write c _) as [ok c1]. destruct ok; [|discriminate]. apply IH. eauto.
Qed.
Lemma chunked_ends : forall ev mem c, (exists d e, In (d, Some e) ev) -> fst (fst (fst (write_chunked ev mem c))) <> WStuck.
Proof.
  induction ev as [|[d e] ev IH]; intros mem c (d0 & e0 & H); [destruct H|]. cbn [write_chunked].
  assert (Aft : forall mm cc, fst (fst (fst (match e with None => write_chunked ev mm cc
                   | Some REof => let '(ok, c) := client_write cc chunked_finalizer in ((if ok then WOk else WNet), mm, c, ev)
                   | Some RFail => (WClose, mm, cc, ev) end))) <> WStuck).
  { intros mm cc. destruct e as [[|]|]; [destruct (client_write cc _) as [[|] ?]; discriminate|discriminate|]. destruct H as [H|H]; [discriminate H|]. apply IH. eauto. }
  destruct (0 <? List.length d)%nat; [|apply Aft]. destruct (_ <? _)%nat; [discriminate|]. destruct (_ <? _)%nat; [discriminate|].
  destruct (client_write c _) as [ok c1]. destruct ok; [apply Aft|discriminate].
Qed.
Lemma write_ends : forall p r resp s c, ends_reading resp -> fst (fst (fst (write_response p r (not_nil resp) s c))) <> WStuck.
Proof.
  intros p r resp s c H. unfold write_response. destruct (f_att (not_nil resp)) as [a|] eqn:Ea.
  - assert (Ha : exists d e, In (d, Some e) (at_events a)) by (destruct resp as [f|]; [eapply H; [reflexivity|exact Ea]|discriminate Ea]).
    destruct (send_attachment _ _ _ _ _) as [[[w s1] c1] f1] eqn:E. cbn [fst]. unfold send_attachment in E. cbv zeta in E.
    match type of E with context [client_write c ?d] => destruct (client_write c d) as [ok c2] end. destruct ok; cbn [negb] in E; [|injection E as <- <- <- <-; discriminate].
    destruct (method_eqb (r_method r) HEAD); [injection E as <- <- <- <-; discriminate|].
    match type of E with context [if ?x then write_plain ?a1 ?a2 ?a3 else write_chunked ?a1 ?a2 ?a3] =>
      pose proof (plain_ends a1 a2 a3 Ha) as K1; pose proof (chunked_ends a1 a2 a3 Ha) as K2;
      assert (K : fst (fst (fst (if x then write_plain a1 a2 a3 else write_chunked a1 a2 a3))) <> WStuck) by (destruct x; assumption);
      destruct (if x then write_plain a1 a2 a3 else write_chunked a1 a2 a3) as [[[w2 m2] c3] ev3] end.
    cbn [fst] in K. destruct w2; injection E as <- <- <- <-; congruence.
  - cbv zeta. destruct (client_write _ _) as [ok c1]. repeat match goal with |- context [if ?x then _ else _] => destruct x end; discriminate.
Qed.
Variable on_request : W -> request -> hprog W.
Variable on_error : W -> request -> http_error -> hprog W.
Hypothesis requests_answered : forall w r, Answering ends_reading (on_request w r).
Hypothesis errors_answered : forall w r e, Answering ends_reading (on_error w r e).
Variable cfg : hcfg.
Lemma close_ends : forall e (st : conn CS W), e <> EndStuck -> fst (close_with cparse max on_error e st) <> EndStuck.
Proof.
  intros e st He. unfold close_with. pose proof (handler_ends _ _ (errors_answered (k_world st) (p_req (k_parser st)) ErrCloseConnection) (p_req (k_parser st)) (k_body st) (k_client st)) as H.
  destruct (run_handler _ _ _ _ _ _); [exact He|discriminate|destruct H].
Qed.
Lemma head_ends : forall (st : conn CS W) extra, cl_pending (k_client st) = [] ->
  match on_head cparse max on_request on_error st extra with
  | inl (e, _) => e <> EndStuck
  | inr st' => (amount (k_client st') <= amount (k_client st) + List.length extra)%nat
  end.
Proof.
  intros st extra Hp. unfold on_head. destruct (if wants_switch _ then _ else _) as [[s pre] version].
  pose proof (handler_ends _ _ (requests_answered (k_world st) (p_req (k_parser st))) (p_req (k_parser st)) (body_init (k_body st) (p_req (k_parser st))) (client_unread (k_client st) extra)) as H.
  assert (A0 : amount (client_unread (k_client st) extra) = (amount (k_client st) + List.length extra)%nat) by (unfold amount; cbn [client_unread cl_pending cl_net]; rewrite Hp; cbn [List.length]; lia).
  destruct (run_handler _ _ _ _ _ _) as [resp w r' b' c'|r' b' c'|]; [|discriminate|destruct H]. destruct H as [H1 H2].
  destruct (r_hijacked r'); [discriminate|]. pose proof (write_ends version r' resp s c' H1) as Hw. destruct (write_response version r' (not_nil resp) s c') as [[[res s'] c''] f''] eqn:Ew.
  destruct (write_response_input _ _ _ _ _ _ _ _ _ Ew) as [[E1 E2] _]. assert (A2 : amount c'' = amount c') by (unfold amount; rewrite E1, E2; reflexivity).
  assert (CE : forall e st2, e <> EndStuck -> let '(x, _) := close_with cparse max on_error e st2 in x <> EndStuck) by (intros e st2 He; pose proof (close_ends e st2 He) as K; destruct (close_with _ _ _ _ _); exact K).
  cbn [fst] in Hw. destruct res; [|apply CE; discriminate|apply CE; discriminate|discriminate|congruence].
  unfold request_clear_full. destruct (discard_ends b' c'') as (x & b3 & c3 & -> & A3). destruct x as [e|]; [apply CE; discriminate|]. cbn [k_client]. lia.
Qed.
Lemma bad_head_ends : forall (st : conn CS W) e, fst (on_bad_head cparse max on_error st e) <> EndStuck.
Proof.
  intros st e. unfold on_bad_head. pose proof (handler_ends _ _ (errors_answered (k_world st) (p_req (k_parser st)) e) (p_req (k_parser st)) (k_body st) (k_client st)) as H.
  destruct (run_handler _ _ _ _ _ _) as [resp w r' b' c'|r' b' c'|]; [|discriminate|destruct H]. destruct H as [H1 H2].
  pose proof (write_ends (r_proto r') r' resp (k_ser st) c' H1) as Hw. destruct (write_response _ _ _ _ _) as [[[res s'] c''] f'']. cbn [fst] in Hw. destruct res; cbn; congruence.
Qed.
Theorem serve_ends : forall fuel (st : conn CS W), (amount (k_client st) < fuel)%nat ->
  fst (serve cparse max cfg on_request on_error fuel st) <> EndStuck /\
  forall more, serve cparse max cfg on_request on_error (fuel + more) st = serve cparse max cfg on_request on_error fuel st.
Proof.
  induction fuel as [|n IH]; intros st Hn; [lia|]. cbn [serve Nat.add]. destruct (client_read (k_client st)) as [[data e] c1] eqn:R.
  destruct (read_amount _ _ _ _ R) as [A1 A2]. destruct e as [e|]; [split; [apply close_ends; discriminate|reflexivity]|].
  destruct (A2 eq_refl) as (P2 & A3 & A4). cbn [set_k_client k_parser].
  destruct (parse cfg (k_parser st) data) as [p|p extra|p err| |] eqn:Ep.
  - apply IH. cbn [set_k_parser set_k_client k_client]. lia.
  - pose proof (parse_done_shorter _ _ _ _ _ Ep) as Sh. pose proof (head_ends (set_k_parser p (set_k_client c1 st)) extra P2) as H.
    destruct (on_head _ _ _ _ _ _) as [[e2 st2]|st']; [split; [exact H|reflexivity]|]. apply IH. cbn [set_k_parser set_k_client k_client] in H. lia.
  - split; [apply bad_head_ends|reflexivity].
  - split; [discriminate|reflexivity].
  - destruct (parse_not_stuck _ _ _ Ep).
Qed.
End Handlers.
End Ends.
Theorem ref_decoder_moves : DecoderMoves ref_parse.
Proof.
  assert (K : forall data s acc s' chunk extra e, kparse s data acc = (s', (chunk, extra, e)) ->
    match e with None => extra = [] | Some CEof => (List.length extra <= List.length data)%nat | Some CErr => True end).
  { induction data as [|c data IH]; intros s acc s' chunk extra e H; cbn [kparse] in H; [injection H as <- <- <- <-; reflexivity|].
    destruct (kstep s c); [apply IH in H; destruct e as [[|]|]; cbn [List.length]; auto; lia|injection H as <- <- <- <-; cbn; lia|injection H as <- <- <- <-; exact I]. }
  intros s data tr s' chunk extra e H. apply K in H. destruct e as [[|]|]; try exact H. subst extra. destruct data; [right; auto|left; cbn; lia].
Qed.
