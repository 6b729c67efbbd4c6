(* C99: connections served at once do not influence each other. *)
From Verif Require Import M_Base M_Status M_Method M_Proto M_Request M_Parser M_Client M_Body M_Response M_Serializer M_Suit M_Router M_Virtual M_Tools M_Many
  S_Chunk S_Router S_Serve S_Many L_Base L_Router5 L_Chunk L_Serve L_ConnProps L_ServeEx L_Many P_Parser.

(* C99: however the rounds of the connections are interleaved, a connection of an application
   whose handlers keep to their requests is read, answered and ended as if it were alone, byte
   for byte: its parser, serializer, network and body are those it would have after as many
   rounds.  Missing: connections that ask for TRACE (see C99_refuted), and connections of a
   process that another connection has crashed (C99_crash_refuted), which take no more turns.
   The others may ask for anything. *)
Theorem C99_partial : forall CS (cparse : CS -> bytes -> bool -> CS * (bytes * bytes * option cerr)) max_body cfg W (os : list (list nat * rop W)) x,
  Running os x -> PlainAliases os -> OwnApp os ->
  forall l m m' i st, nth_error (m_slots m) i = Some (Going st) -> steps cparse max_body cfg (on_request x) (on_error x) l m = Some m' ->
  AsksOnly cparse max_body cfg (on_request x) (on_error x) NotTrace st ->
  exists y, nth_error (m_slots m') i = Some y /\ LikeSlot y (alone cparse max_body cfg (on_request x) (on_error x) (turns i l) st).
Proof. intros. eapply isolated; eauto. apply (router_own W os x); assumption. Qed.
Print Assumptions C99_partial.
(* with the simple router, nothing is missing but crashes *)
Theorem C99_simple : forall CS (cparse : CS -> bytes -> bool -> CS * (bytes * bytes * option cerr)) max_body cfg W (h eh : W -> request -> hprog W),
  (forall w w' r, Alike (h w r) (h w' r)) -> (forall w w' r, Alike (eh w r) (eh w' r)) ->
  forall l m m' i st, nth_error (m_slots m) i = Some (Going st) -> steps cparse max_body cfg (simple_request h) (simple_error eh) l m = Some m' ->
  exists y, nth_error (m_slots m') i = Some y /\ LikeSlot y (alone cparse max_body cfg (simple_request h) (simple_error eh) (turns i l) st).
Proof. intros. eapply isolated; eauto. - apply simple_own; assumption. - intros n st' d c p extra _ _ _. exact I. Qed.
Print Assumptions C99_simple.
(* virtual hosts of such applications are one, too, whatever they share *)
Theorem C99_virtual : forall CS (cparse : CS -> bytes -> bool -> CS * (bytes * bytes * option cerr)) max_body cfg W (v : vrouter (world W)),
  (forall x, In x (map snd (v_hosts v)) \/ v_default v = Some x ->
    exists os y, x = RouterOf (on_request y) (on_error y) /\ Running os y /\ PlainAliases os /\ OwnApp os) ->
  forall l m m' i st, nth_error (m_slots m) i = Some (Going st) -> steps cparse max_body cfg (v_request v) (v_error v) l m = Some m' ->
  AsksOnly cparse max_body cfg (v_request v) (v_error v) NotTrace st ->
  exists y, nth_error (m_slots m') i = Some y /\ LikeSlot y (alone cparse max_body cfg (v_request v) (v_error v) (turns i l) st).
Proof.
  intros CS cparse max_body cfg W v H l m m' i st H1 H2 H3. eapply isolated; eauto. apply virtual_own.
  - intros r Hr. unfold NotTrace. rewrite looked_method. exact Hr.
  - intros x Hx. destruct (H x Hx) as (os & y & -> & A & B0 & C). exact (router_own W os y A B0 C).
Qed.
Print Assumptions C99_virtual.
(* being alone is being served by the loop of the other theorems *)
Theorem C99_alone : forall CS (cparse : CS -> bytes -> bool -> CS * (bytes * bytes * option cerr)) max_body cfg W (orq : W -> request -> hprog W) oe n (st : conn CS W) e st',
  alone cparse max_body cfg orq oe n st = Over e st' -> forall k, serve cparse max_body cfg orq oe (n + k) st = (e, st').
Proof. exact alone_serve. Qed.
Print Assumptions C99_alone.
(* and no connection waits for another: as long as the process runs, each can take its turn *)
Theorem C99_turns : forall CS (cparse : CS -> bytes -> bool -> CS * (bytes * bytes * option cerr)) max_body cfg W (orq : W -> request -> hprog W) oe (m : many CS W) i st,
  m_dead m = false -> nth_error (m_slots m) i = Some (Going st) -> exists m', step cparse max_body cfg orq oe i m = Some m'.
Proof.
  intros CS cparse max_body cfg W orq oe m i st H1 H2. unfold step. rewrite H1, H2. destruct (round cparse max_body cfg orq oe (with_world (m_world m) st)) as [[e x]|x]; eexists; reflexivity.
Qed.
Print Assumptions C99_turns.

(* two connections to the shop *)
Definition shop_many (a b : list bytes) : many kstate (world (list nat)) := Many ([], []) false [Going (shop_conn a); Going (shop_conn b)].
Definition shop_steps (x : runtime (list nat)) := steps ref_parse 100 ex_cfg (on_request x) (on_error x).
Definition sent (s : option (slot kstate (world (list nat)))) : list bytes := match s with Some (Going st) | Some (Over _ st) => cl_out (k_client st) | None => [] end.
Definition sends_at (m : option (many kstate (world (list nat)))) (i : nat) : list bytes := match m with Some m => sent (nth_error (m_slots m) i) | None => [] end.
Definition get_c := B "GET /c HTTP/1.1" ++ CRLF ++ CRLF.
Definition trace_a (fs : list bytes) := B "TRACE /a HTTP/1.1" ++ CRLF ++ concat (map (fun f => f ++ CRLF) fs) ++ CRLF.

Lemma shop_own : OwnApp shop.
Proof. intros addr o [[= _ <-]|[[= _ <-]|[]]]; (split; [intros w w' r; apply Al_body; intros out; apply Al_ret|apply Forall_nil]). Qed.
(* the shop with a handler that panics *)
Definition crasher : list (list nat * rop (list nat)) := [([], Route GET (B "/crash") (fun _ _ => HCrash) []); ([], Route GET (B "/c") repeat_body [])].
Lemma crasher_own : OwnApp crasher.
Proof.
  intros addr o [[= _ <-]|[[= _ <-]|[]]]; (split; [|apply Forall_nil]).
  - intros w w' r. apply Al_crash.
  - intros w w' r. apply Al_body. intros out. apply Al_ret.
Qed.

(* REFUTED: answers go to the one who asks: TRACE is answered from a buffer of the router that all
   connections share and nothing empties, so a client that asks for it is sent the headers -
   cookies, authorization - of the clients that asked before. *)
Theorem C99_refuted : exists x, Running shop x /\ PlainAliases shop /\ OwnApp shop /\
  sends_at (shop_steps x [1]%nat (shop_many [trace_a [B "Cookie: id=4711"]] [trace_a []])) 1 =
    [crlf_lines [B "HTTP/1.1 200 OK"; B "Content-Type: message/http"; B "Content-Length: 40"; []; B "TRACE /a HTTP/1.1"; B "Content-Length: 0"; []]] /\
  sends_at (shop_steps x [0; 1]%nat (shop_many [trace_a [B "Cookie: id=4711"]] [trace_a []])) 1 =
    [crlf_lines [B "HTTP/1.1 200 OK"; B "Content-Type: message/http"; B "Content-Length: 97"; []; B "TRACE /a HTTP/1.1"; B "Cookie: id=4711"; B "Content-Length: 0"; [];
       B "TRACE /a HTTP/1.1"; B "Content-Length: 0"; []]].
Proof.
  eexists. split; [apply start_running; vm_compute; reflexivity|]. split; [exact shop_plain|]. split; [|split; vm_compute; reflexivity].
  exact shop_own.
Qed.
Print Assumptions C99_refuted.

(* REFUTED: connections do not end each other: nothing recovers from a panic of a handler, so it
   ends the process, and every other connection with it, here in the middle of a request. *)
Theorem C99_crash_refuted : exists x, Running crasher x /\ PlainAliases crasher /\ OwnApp crasher /\
  let m := shop_many [B "GET /crash HTTP/1.1" ++ CRLF ++ CRLF] [B "GET /c HT"; B "TP/1.1" ++ CRLF ++ CRLF] in
  sends_at (shop_steps x [1; 1]%nat m) 1 = [crlf_lines [B "HTTP/1.1 200 OK"; B "Content-Type: text/html"; B "Content-Length: 0"; []]] /\
  exists m', shop_steps x [1; 0]%nat m = Some m' /\ m_dead m' = true /\ shop_steps x [1]%nat m' = None.
Proof.
  eexists. split; [apply start_running; vm_compute; reflexivity|]. split; [apply plain_nothing; [reflexivity|]; intros a mu [H|[H|[]]]; discriminate|]. split; [exact crasher_own|].
  cbv zeta. split; [vm_compute; reflexivity|]. eexists. split; [vm_compute; reflexivity|]. split; vm_compute; reflexivity.
Qed.
Print Assumptions C99_crash_refuted.

(* two connections, their requests in pieces, their rounds interleaved: each is answered as if alone *)
Example C99_case : exists x, Running shop x /\ PlainAliases shop /\ OwnApp shop /\
  let a := [B "POST /a HTTP/1.1" ++ CRLF; B "Content-Length: 4" ++ CRLF ++ CRLF ++ B "left"; get_c] in
  let b := [B "POST /a HTT"; B "P/1.1" ++ CRLF ++ B "Content-Length: 5" ++ CRLF ++ CRLF ++ B "right"] in
  sends_at (shop_steps x [0; 1; 1; 0; 0]%nat (shop_many a b)) 0 = [ok_text (B "HTTP/1.1") (B "left"); ok_text (B "HTTP/1.1") []] /\
  sends_at (shop_steps x [0; 1; 1; 0; 0]%nat (shop_many a b)) 1 = [ok_text (B "HTTP/1.1") (B "right")] /\
  sent (Some (alone ref_parse 100 ex_cfg (on_request x) (on_error x) 2 (shop_conn b))) = [ok_text (B "HTTP/1.1") (B "right")] /\
  AsksOnly ref_parse 100 ex_cfg (on_request x) (on_error x) NotTrace (shop_conn b).
Proof.
  eexists. split; [apply start_running; vm_compute; reflexivity|]. split; [exact shop_plain|]. split; [exact shop_own|].
  cbv zeta. split; [vm_compute; reflexivity|]. split; [vm_compute; reflexivity|]. split; [vm_compute; reflexivity|].
  intros [|[|[|n]]] st' d c p extra; cbn [alone].
  - intros [= <-]. intros [= <- _]. intros E. vm_compute in E. discriminate.
  - intros H H1 H2. vm_compute in H. injection H as <-. vm_compute in H1. injection H1 as <- <-. vm_compute in H2. injection H2 as <- _. vm_compute. discriminate.
  - intros H H1. vm_compute in H. injection H as <-. vm_compute in H1. discriminate.
  - intros H. vm_compute in H. discriminate.
Qed.
