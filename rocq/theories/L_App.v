(* Lemmas about listeners and encryption marks. *)
From Verif Require Import M_Base M_Status M_Method M_Proto M_Uri M_KeyValue M_Query M_Request M_Parser M_Client M_Body
  M_Response M_Serializer M_Suit M_Middleware M_App S_App L_Base L_Safe.

(* ---- bind ---- *)
Section Bind.
Variable Sock : Type.
Variable listen : lkind -> bytes -> option Sock.
Lemma fill_wanted : forall s, so_handler (fill_handler s) = Some (wanted s).
Proof. intros [a l [h|]]; reflexivity. Qed.
Lemma bind_loop_var : forall srcs var servers servers' var', bind_loop listen srcs var servers = Bound servers' var' ->
  var' = match rev srcs with [] => var | s :: _ => fill_handler s end /\
  List.length servers' = (List.length servers + List.length srcs)%nat /\
  (Forall (fun s => bs_handler s = fun src => so_handler src) servers -> Forall (fun s => bs_handler s = fun src => so_handler src) servers').
Proof.
  induction srcs as [|s srcs IH]; intros var servers servers' var' H; cbn [bind_loop] in H.
  - injection H as <- <-. cbn. split; [reflexivity|]. split; [lia|auto].
  - destruct (listen (so_listen s) (so_addr s)) as [sock|]; [|discriminate]. apply IH in H. destruct H as (H1 & H2 & H3). split.
    + cbn [rev]. rewrite H1. destruct (rev srcs) as [|x l]; reflexivity.
    + split; [rewrite H2, app_length; cbn; lia|]. intros HF. apply H3. apply Forall_app. split; [exact HF|]. repeat constructor.
Qed.
Theorem last_handler : forall srcs s servers var, bind listen (srcs ++ [s]) = Bound servers var ->
  List.length servers = S (List.length srcs) /\ forall i, (i < List.length servers)%nat -> conn_handler (Bound servers var) i = Some (wanted s).
Proof.
  intros srcs s servers var H. apply bind_loop_var in H. destruct H as (H1 & H2 & H3). rewrite rev_app_distr in H1. cbn [rev app] in H1.
  split; [rewrite H2, app_length; cbn; lia|]. intros i Hi. cbn [conn_handler]. destruct (nth_error servers i) as [x|] eqn:E; [|apply nth_error_None in E; lia].
  specialize (H3 (Forall_nil _)). rewrite Forall_forall in H3. rewrite (H3 x (nth_error_In _ _ E)), H1. apply fill_wanted.
Qed.
Theorem own_handlers : forall srcs servers var, bind listen srcs = Bound servers var ->
  (OwnHandlers srcs (Bound servers var) <-> forall s s', In s srcs -> In s' srcs -> wanted s = wanted s').
Proof.
  intros srcs servers var H. destruct srcs as [|s0 srcs0] using rev_ind.
  { split; [intros _ s s' []|]. intros _ i s Hi. destruct i; discriminate. }
  clear IHsrcs0. rename s0 into z. rename srcs0 into srcs. destruct (last_handler srcs z servers var H) as [HL HH].
  assert (L : forall i s, nth_error (srcs ++ [z]) i = Some s -> conn_handler (Bound servers var) i = Some (wanted z)).
  { intros i s Hi. apply HH. rewrite HL. assert (i < List.length (srcs ++ [z]))%nat by (apply nth_error_Some; congruence). rewrite app_length in *. cbn in *. lia. }
  split.
  - intros HO. assert (K : forall s, In s (srcs ++ [z]) -> wanted s = wanted z).
    { intros s Hi. apply In_nth_error in Hi. destruct Hi as (i & Hi). specialize (HO i s Hi). rewrite (L i s Hi) in HO. congruence. }
    intros s s' H1 H2. rewrite (K s H1), (K s' H2). reflexivity.
  - intros HA i s Hi. rewrite (L i s Hi). f_equal. apply HA; [apply in_or_app; right; left; reflexivity|exact (nth_error_In _ _ Hi)].
Qed.
Theorem failed_bind : forall srcs opened, bind listen srcs = BindFailed opened ->
  exists before s after, srcs = before ++ s :: after /\ listen (so_listen s) (so_addr s) = None /\
    map Some opened = map (fun s => listen (so_listen s) (so_addr s)) before.
Proof.
  assert (K : forall srcs var servers opened, bind_loop listen srcs var servers = BindFailed opened ->
    exists before s after, srcs = before ++ s :: after /\ listen (so_listen s) (so_addr s) = None /\
      map Some opened = map Some (map bs_sock servers) ++ map (fun s => listen (so_listen s) (so_addr s)) before).
  { induction srcs as [|s srcs IH]; intros var servers opened H; cbn [bind_loop] in H; [discriminate|].
    destruct (listen (so_listen s) (so_addr s)) as [sock|] eqn:E.
    - apply IH in H. destruct H as (b & x & a & -> & H1 & H2). exists (s :: b), x, a. split; [reflexivity|]. split; [exact H1|].
      rewrite H2, !map_app, <- app_assoc. cbn [map app bs_sock]. rewrite E. reflexivity.
    - injection H as <-. exists [], s, srcs. split; [reflexivity|]. split; [exact E|]. cbn [map]. rewrite app_nil_r. reflexivity. }
  intros srcs opened H. exact (K srcs no_source [] opened H).
Qed.
End Bind.

(* ---- the parser does not touch the environment ---- *)
Definition env_of (p : parser) : environment := r_env (p_req p).
Definition res_env (e : environment) (r : pres) : Prop :=
  match r with RPending p | RDone p _ | RErr p _ => env_of p = e | RPanic | RStuck => True end.
Lemma apply_header_env : forall cfg k v r, r_env (apply_header cfg k v r) = r_env r.
Proof.
  intros cfg k v r. unfold apply_header. repeat match goal with
  | |- context [match List.length k with _ => _ end] => destruct (List.length k)
  | |- r_env (match ?n with _ => _ end) = _ => destruct n
  | |- context [if ?b then _ else _] => destruct b
  | |- context [parse_encoding_string ?a ?b] => destruct (parse_encoding_string a b)
  end; reflexivity.
Qed.
Lemma request_line_env : forall p line, match request_line p line with inl r => res_env (env_of p) r | inr p' => env_of p' = env_of p end.
Proof.
  intros p line. unfold request_line, res_env. destruct (cut_last line SP) as [[rp rq]|]; [|reflexivity].
  destruct (last_byte rq) as [c|]; [|exact I].
  destruct (cut rp x3f) as [[a b]|].
  - destruct a as [|a0 a]; [reflexivity|]. destruct (uri_decode (a0 :: a)) as [pa|]; [|reflexivity]. destruct (proto_from_bytes _); reflexivity.
  - destruct rp as [|a0 a]; [reflexivity|]. destruct (uri_decode (a0 :: a)) as [pa|]; [|reflexivity]. destruct (proto_from_bytes _); reflexivity.
Qed.
Lemma step_env : forall cfg l p d, match step cfg l p d with Goto _ p' _ => env_of p' = env_of p | Ret r => res_env (env_of p) r end.
Proof.
  intros cfg l p d. destruct l; cbn [step].
  - unfold step_method. destruct (cut d SP) as [[m rest]|].
    + destruct (buf_seglen (p_start p) =? 0)%Z.
      * destruct m; [reflexivity|]. destruct (method_parse _); reflexivity.
      * destruct (buf_append (p_start p) m) as [b|]; [|reflexivity]. unfold buf_finish. destruct (b_seg b); [reflexivity|]. destruct (method_parse _); reflexivity.
    + destruct (buf_append (p_start p) d); reflexivity.
  - unfold step_path. destruct (cut d LF) as [[m rest]|]; [|destruct (buf_append (p_start p) d); reflexivity].
    destruct (buf_append (p_start p) m) as [b|]; [|reflexivity]. unfold buf_finish.
    match goal with |- context [request_line ?q ?x] => pose proof (request_line_env q x) as H; destruct (request_line q x) end; exact H.
  - unfold step_header_key. destruct d as [|c d]; [reflexivity|]. destruct (Byte.eqb c LF); [reflexivity|]. destruct (Byte.eqb c CR); [reflexivity|].
    destruct (cut (c :: d) x3a) as [[k rest]|]; [|destruct (buf_append (p_key p) (c :: d)); reflexivity].
    destruct (buf_append (p_key p) k) as [b|]; [|reflexivity]. unfold buf_finish. match goal with |- context [if ?x then _ else _] => destruct x end; [reflexivity|].
    match goal with |- context [if ?x then _ else _] => destruct x end; reflexivity.
  - unfold step_content_length. destruct (clen_loop (p_clen p) d) as [n [[|c rest]|]]; [exact I| |reflexivity]. destruct (Byte.eqb c CR); [reflexivity|]. destruct (Byte.eqb c LF); reflexivity.
  - unfold step_content_length_cr. destruct d as [|c d]; [reflexivity|]. destruct (Byte.eqb c LF); reflexivity.
  - unfold step_header_value. destruct (cut d LF) as [[v rest]|].
    + destruct (buf_append (p_val p) v) as [b|]; [|reflexivity]. match goal with |- context [if ?x then _ else _] => destruct x end; [reflexivity|]. unfold buf_finish.
      destruct (last_byte _) as [c|]; [|exact I]. unfold env_of. cbn [p_req set_p_req]. apply apply_header_env.
    + destruct (buf_append (p_val p) d) as [b|]; [|reflexivity]. match goal with |- context [if ?x then _ else _] => destruct x end; reflexivity.
  - unfold step_crlfcr. destruct d as [|c d]; [reflexivity|]. destruct (Byte.eqb c LF); reflexivity.
Qed.
Lemma parse_env : forall cfg p d, res_env (env_of p) (parse cfg p d).
Proof.
  intros cfg p d. unfold parse. generalize (S (List.length d)) as n. generalize (p_state p) as l. intros l n. revert l p d.
  induction n as [|n IH]; intros l p d; cbn [run]; [exact I|]. pose proof (step_env cfg l p d) as H. destruct (step cfg l p d) as [l' p' d'|r]; [|exact H].
  rewrite <- H. apply IH.
Qed.

(* ---- the marks of the requests on a connection ---- *)
Section Marks.
Variable CS : Type.
Variable cparse : CS -> bytes -> bool -> CS * (bytes * bytes * option cerr).
Variable max_body : Z.
Variable cfg : hcfg.
Variable W : Type.
Variable on_request : W -> request -> hprog W.
Variable on_error : W -> request -> http_error -> hprog W.
Lemma run_hmap : forall V U (f : V -> U) f', (forall v, f' (f v) = v) -> forall h r b c, run_handler cparse max_body (hmap f f' h) r b c =
  match run_handler cparse max_body h r b c with HDone resp w r' b' c' => HDone resp (f w) r' b' c' | HPanic r' b' c' => HPanic r' b' c' | HStuck => HStuck end.
Proof.
  intros V U f f' Hf h. induction h as [resp w|op k IH|g k IH|k IH|k IH|d k IH| |p IHp q IHq k IHk|k IHk]; intros r b c; cbn [hmap run_handler].
  - reflexivity.
  - destruct (body_op cparse max_body op b c) as [[o b'] c']. destruct o as [[d|e| |]|d e|ps [[e|]|]|[[e|]|]]; cbn; try reflexivity; apply IH.
  - apply IH.
  - destruct (body_discard cparse max_body b c) as [[[[e|]|] b'] c']; cbn; try reflexivity; apply IH.
  - destruct (client_read c) as [x c']. apply IH.
  - destruct (client_write c d) as [ok c']. apply IH.
  - reflexivity.
  - rewrite IHp. destruct (run_handler cparse max_body p r b c) as [resp w r1 b1 c1|r1 b1 c1|]; [rewrite Hf; apply IHk| |reflexivity].
    rewrite IHq. destruct (run_handler cparse max_body q r1 b1 c1) as [resp w r2 b2 c2|r2 b2 c2|]; [rewrite Hf; apply IHk|reflexivity|reflexivity].
  - apply IHk.
Qed.

Notation nreq := (noting on_request).
Notation nerr := (passing on_error).
Definition mark_of (st : conn CS (W * list enc_token)) : enc_token := env_encryption (r_env (p_req (k_parser st))).
Definition log_of (st : conn CS (W * list enc_token)) : list enc_token := snd (k_world st).
Lemma close_log : forall e st, log_of (snd (close_with cparse max_body nerr e st)) = log_of st.
Proof.
  intros e st. unfold close_with, passing. rewrite run_hmap by reflexivity. destruct (run_handler _ _ (on_error _ _ _) _ _ _); reflexivity.
Qed.
Lemma bad_head_log : forall st e, log_of (snd (on_bad_head cparse max_body nerr st e)) = log_of st.
Proof.
  intros st e. unfold on_bad_head, passing. rewrite run_hmap by reflexivity. destruct (run_handler _ _ (on_error _ _ _) _ _ _) as [resp w r b c| |]; try reflexivity.
  destruct (write_response _ _ _ _ _) as [[[res s'] c'] x]. destruct res; reflexivity.
Qed.
Lemma head_log : forall st extra, match on_head cparse max_body nreq nerr st extra with
  | inl (_, st') => log_of st' = log_of st \/ log_of st' = log_of st ++ [mark_of st]
  | inr st' => log_of st' = log_of st ++ [mark_of st] /\ mark_of st' = enc_plain
  end.
Proof.
  intros st extra. unfold on_head.
  match goal with |- context [if wants_switch ?r then ?a else ?b] => destruct (if wants_switch r then a else b) as [[s pre] version] end.
  unfold noting at 1. rewrite run_hmap by reflexivity. destruct (run_handler _ _ (on_request _ _) _ _ _) as [resp w r b c| |]; try (left; reflexivity).
  destruct (r_hijacked r); [right; reflexivity|].
  destruct (write_response _ _ _ _ _) as [[[res s'] c'] x]. destruct res; try (right; reflexivity).
  - unfold request_clear_full. destruct (body_discard _ _ _ _) as [[[[e|]|] b2] c2].
    + match goal with |- context [close_with ?a ?b ?c ?d ?e] => pose proof (close_log d e) as H; destruct (close_with a b c d e) as [en st'] end.
      right. cbn [snd] in H. rewrite H. reflexivity.
    + split; reflexivity.
    + right. reflexivity.
  - match goal with |- context [close_with ?a ?b ?c ?d ?e] => pose proof (close_log d e) as H; destruct (close_with a b c d e) as [en st'] end.
    right. cbn [snd] in H. rewrite H. reflexivity.
  - match goal with |- context [close_with ?a ?b ?c ?d ?e] => pose proof (close_log d e) as H; destruct (close_with a b c d e) as [en st'] end.
    right. cbn [snd] in H. rewrite H. reflexivity.
Qed.
Lemma serve_log : forall fuel st, exists k, log_of (snd (serve cparse max_body cfg nreq nerr fuel st)) = log_of st ++ firstn k (mark_of st :: repeat enc_plain k).
Proof.
  induction fuel as [|n IH]; intros st; cbn [serve]; [exists 0%nat; cbn [firstn]; rewrite app_nil_r; reflexivity|].
  destruct (client_read (k_client st)) as [[data e] c1]. destruct e as [e|].
  - exists 0%nat. rewrite close_log. cbn [firstn]. rewrite app_nil_r. reflexivity.
  - pose proof (parse_env cfg (k_parser st) data) as HP. cbn [k_parser set_k_client].
    destruct (parse cfg (k_parser st) data) as [p|p extra|p err| |]; cbn [res_env] in HP.
    + destruct (IH (set_k_parser p (set_k_client c1 st))) as (k & Hk). exists k. rewrite Hk. unfold mark_of, log_of, env_of in *. cbn [k_parser k_world set_k_parser set_k_client]. rewrite HP. reflexivity.
    + pose proof (head_log (set_k_parser p (set_k_client c1 st)) extra) as HH. unfold mark_of at 1 2, log_of at 2 4 6 in HH. unfold env_of in HP.
      cbn [k_parser k_world set_k_parser set_k_client] in HH. rewrite HP in HH.
      destruct (on_head _ _ _ _ _ _) as [[en st']|st'].
      * cbn [snd]. destruct HH as [H|H]; [exists 0%nat; cbn [firstn]; rewrite app_nil_r; exact H|exists 1%nat; exact H].
      * destruct HH as [H1 H2]. destruct (IH st') as (k & Hk). exists (S k). rewrite Hk, H1, H2. rewrite <- app_assoc. reflexivity.
    + exists 0%nat. rewrite bad_head_log. cbn [firstn]. rewrite app_nil_r. reflexivity.
    + exists 0%nat. cbn [firstn]. rewrite app_nil_r. reflexivity.
    + exists 0%nat. cbn [firstn]. rewrite app_nil_r. reflexivity.
Qed.
Theorem marks : forall fuel umax kmax vmax fbs defs enc cs c w, 
  let st := serve cparse max_body cfg nreq nerr fuel (new_conn umax kmax vmax fbs defs enc cs c (w, [])) in
  snd (k_world (snd st)) = [] \/ exists k, snd (k_world (snd st)) = enc :: repeat enc_plain k.
Proof.
  intros fuel umax kmax vmax fbs defs enc cs c w st. subst st.
  destruct (serve_log fuel (new_conn umax kmax vmax fbs defs enc cs c (w, []))) as (k & Hk). unfold log_of in Hk. cbn [k_world new_conn snd app] in Hk.
  change (mark_of (new_conn umax kmax vmax fbs defs enc cs c (w, []))) with enc in Hk. rewrite Hk. destruct k as [|k]; [left; reflexivity|].
  right. exists k. cbn [firstn]. f_equal. cbn [repeat]. rewrite firstn_cons || idtac. destruct k; [reflexivity|].
  replace (S k) with (List.length (repeat enc_plain (S k))) at 1 by apply repeat_length.
  change (enc_plain :: repeat enc_plain (S k)) with (repeat enc_plain 1 ++ repeat enc_plain (S k)).
  rewrite <- repeat_app, Nat.add_comm, repeat_app, firstn_app, firstn_all, Nat.sub_diag. cbn [firstn]. apply app_nil_r.
Qed.
End Marks.
