(* Properties C59 and C47: handlers that may take over the connection. *)
From Verif Require Import M_Base M_Status M_Method M_Proto M_KeyValue M_Query M_Request M_Parser M_Client M_Body
  M_Response M_Serializer M_Suit M_Path M_Radix M_Router M_Middleware M_Bundled S_Static S_KeyValue S_Chunk S_Head S_Parser S_Body S_Response S_Conn S_Split S_Routes S_Router
  S_Serve S_Mutators S_Mutated S_Guarded S_Upgrade S_Takeover S_Takeover2
  L_Base L_Body2 L_Chunk L_Conn2 L_Conn3 L_ConnProps L_Router5 L_Serve L_ServeEx L_Upgrade L_Mutators L_Guarded L_Takeover L_Takeover2 L_Takeover3 P_Parser P_Upgrade.

(* C59: pipelined requests whose handlers decide at any point, after any use of the body, whether
   to take over the connection.  Until one does, they are answered one after the other, upgrades
   included.  The one that does has exactly the bytes behind its own request in front of it,
   those of the later requests included, in some pieces; what it writes comes right
   behind the earlier responses; when it returns, the loop ends without touching the connection. *)
Theorem C59_pipelined : forall CS cparse encoded fresh inside,
  DecoderOk CS cparse encoded fresh inside -> forall max, (max < two64)%Z ->
  forall cfg umax kmax vmax fbs defs, distinct_names defs ->
  forall W (on_request : W -> request -> hprog W) (on_error : W -> request -> http_error -> hprog W),
  forall reqs past ups (st : conn CS W) tail,
  (forall q w r, In q reqs -> Shows (q_head q) r -> Willing fbs (on_request w r)) ->
  Amid umax kmax vmax fbs defs fresh past ups st ->
  Forall (SoundRequest encoded (cfg_limits cfg umax kmax vmax) max) reqs ->
  stream (k_client st) = concat (map wire reqs) ++ tail ->
  (exists n st1, Seized defs (Answered on_request) (GivenAs on_request) reqs tail past ups st st1 /\
     forall fuel, serve cparse max cfg on_request on_error (n + fuel)%nat st = (EndHijack, st1)) \/
  exists n outs closed st1, Exchange defs (Answered on_request) reqs (k_world st) past ups outs (k_world st1) closed /\
    cl_out (k_client st1) = cl_out (k_client st) ++ outs /\
    match closed with
    | None => (exists past' ups', Amid umax kmax vmax fbs defs fresh past' ups' st1) /\ stream (k_client st1) = tail /\
              forall fuel, serve cparse max cfg on_request on_error (n + fuel)%nat st = serve cparse max cfg on_request on_error fuel st1
    | Some _ => forall fuel, serve cparse max cfg on_request on_error (n + fuel)%nat st = close_with cparse max on_error EndWrite st1
    end.
Proof. exact free_exchange. Qed.
Print Assumptions C59_pipelined.

(* C59: the same for a whole connection of an application of the built-in router: whatever is
   registered may take over, and is the handler registered for what the mutators made of the
   request *)
Theorem C59_app : forall CS cparse encoded fresh inside,
  DecoderOk CS cparse encoded fresh inside -> forall max, (max < two64)%Z ->
  forall cfg umax kmax vmax fbs defs, distinct_names defs ->
  forall W (os : list (list nat * rop W)) x mus, Running os x -> InOrder os [] mus -> HarmlessMutators os -> WillingApp fbs (settled os) ->
  forall reqs past ups (st : conn CS (world W)) tail, MutatedRoutable os mus reqs ->
  Amid umax kmax vmax fbs defs fresh past ups st ->
  Forall (SoundRequest encoded (cfg_limits cfg umax kmax vmax) max) reqs ->
  Unfinished (cfg_limits cfg umax kmax vmax) tail ->
  stream (k_client st) = concat (map wire reqs) ++ tail ->
  (exists n st1, Seized defs (MutatedTo os mus) (DispatchedAs os mus) reqs tail past ups st st1 /\
    forall fuel, (n <= fuel)%nat -> serve cparse max cfg (on_request x) (on_error x) fuel st = (EndHijack, st1)) \/
  exists n outs closed st1,
    Exchange defs (MutatedTo os mus) reqs (k_world st) past ups outs (k_world st1) closed /\
    cl_out (k_client st1) = cl_out (k_client st) ++ outs /\
    forall fuel, (n <= fuel)%nat ->
      serve cparse max cfg (on_request x) (on_error x) fuel st =
      close_with cparse max (on_error x) (match closed with None => EndRead | Some _ => EndWrite end) st1.
Proof. exact app_connection. Qed.
Print Assumptions C59_app.

(* a handler that takes over on /tunnel after having read the body, says what it reads until the
   network fails, and otherwise echoes the body *)
Fixpoint ex_relay (n : nat) : hprog log :=
  match n with
  | O => HRet None []
  | S n' => HConnRead (fun x => match snd x with None => HConnWrite (B "got " ++ fst x) (fun _ => ex_relay n') | Some _ => HRet None [] end)
  end.
Definition ex_either (w : log) (r : request) : hprog log :=
  HBody OBytes (fun o => if beqb (r_path r) (B "/tunnel") then HHijack (fun _ => ex_relay 5) else ex_echo w r).
Definition ex_tunnel_req : req := Req (Head POST (B "/tunnel") (B "/tunnel") None HTTP11 true [HLine (B "Content-Length") 1 (B "3") true] true) (B "abc") (B "abc").
Example C59_pipelined_case : (forall w r, Willing 64 (ex_either w r)) /\
  Forall (SoundRequest chunked_text ex_lim 100) [ex_alive; ex_tunnel_req; ex_alive] /\
  let res := ex_serve ex_either [wire ex_alive ++ wire ex_tunnel_req ++ B "GET /k HTT"; B "P/1.0" ++ CRLF; B "raw"] in
  fst res = EndHijack /\ answers res = [ok_text (B "HTTP/1.0") []; B "got GET /k HTT"; B "got P/1.0" ++ CRLF; B "got raw"].
Proof.
  assert (Rel : forall n, Free (CanBeSent 64) false true (ex_relay n)).
  { induction n as [|n IH]; cbn [ex_relay]; [apply Fr_ret; intros f E; discriminate|]. apply Fr_read. intros [d [e|]]; cbn [fst snd]; [apply Fr_ret; intros f E; discriminate|].
    apply Fr_write. intros b. exact IH. }
  split; [|split].
  - intros w r. apply Fr_body. intros o. destruct (beqb _ _); [apply Fr_hijack; apply Rel|]. apply tame_free. apply ex_ordinary.
  - repeat (apply Forall_cons || apply Forall_nil); constructor; cbn [q_head q_wire q_text ex_tunnel_req ex_alive];
      try (unfold ex_tunnel_req, ex_alive; head_ok); try head_fits; try (vm_compute; discriminate); cbn; repeat split; vm_compute; discriminate || reflexivity.
  - split; vm_compute; reflexivity.
Qed.

(* ------------------------------------------------------------------------------------ *)
(* C47: exactly what is sent for a request that makes the server switch: if its handler takes over,
   what the handler writes and nothing else; otherwise the announcement, together with the
   beginning of the response, which is in the new version *)
Theorem C47_exact : forall CS cparse encoded fresh inside,
  DecoderOk CS cparse encoded fresh inside -> forall max, (max < two64)%Z ->
  forall cfg umax kmax vmax fbs defs, distinct_names defs ->
  forall W (on_request : W -> request -> hprog W) (on_error : W -> request -> http_error -> hprog W),
  forall past ups (st : conn CS W) q rest p,
  (forall w r, Shows (q_head q) r -> Willing fbs (on_request w r)) ->
  Amid umax kmax vmax fbs defs fresh past ups st -> SoundRequest encoded (cfg_limits cfg umax kmax vmax) max q ->
  stream (k_client st) = wire q ++ rest -> switch_to (q_head q) = Some p ->
  (exists n r resp r' v evs wrote st1, Shows (q_head q) r /\
     FSteps (more_of (q_head q)) rest (on_request (k_world st) r) r (Open (fresh_view (q_text q))) (Returns resp (k_world st1)) r' (Over v evs wrote) /\
     cl_out (k_client st1) = cl_out (k_client st) ++ wrote /\
     forall fuel, serve cparse max cfg on_request on_error (n + fuel)%nat st = (EndHijack, st1)) \/
  exists n resp w1 r' first more st1, Answered on_request (k_world st) q resp w1 r' /\
    Sent defs (past ++ map fst (announcement (ups ++ [h_proto (q_head q)]))) p r' (not_nil resp) (first :: more) /\
    cl_out (k_client st1) = cl_out (k_client st) ++
      (announced_text defs past (ups ++ [h_proto (q_head q)]) (h_proto (q_head q)) ++ first) :: more /\
    forall fuel, serve cparse max cfg on_request on_error (n + fuel)%nat st = serve cparse max cfg on_request on_error fuel st1.
Proof.
  intros CS cparse encoded fresh inside HD max Hmax cfg umax kmax vmax fbs defs Hdefs W on_request on_error past ups st q rest p Hw Ha HG Hs Hp.
  destruct (free_exchange_one CS cparse encoded fresh inside HD max Hmax cfg umax kmax vmax fbs defs Hdefs W on_request on_error past ups st q rest Hw Ha HG Hs)
    as [(n & r & resp & r' & v & evs & wrote & st1 & O1 & O2 & O3 & O4 & O5)
       |(n & resp & w1 & r' & out & past' & ups' & st1 & O1 & O3 & O4 & O5 & O6)].
  - left. exists n, r, resp, r', v, evs, wrote, st1. auto.
  - right. inversion O3 as [o0 E S|p0 first more E U P S]; subst; [congruence|]. rewrite Hp in E. injection E as <-.
    exists n, resp, (k_world st1), r', first, more, st1. split; [exact O1|]. split; [exact S|]. split; [exact O4|].
    destruct O6 as [(_ & _ & _ & O6)|(O6 & _)]; [exact O6|]. exfalso. apply O6. right. apply switch_wish in Hp. destruct Hp as [-> Hp]. exact Hp.
Qed.
Print Assumptions C47_exact.

Example C47_exact_case : switch_to (q_head (ex_asks (B "HTTP/1.1"))) = Some HTTP11 /\
  answers (ex_serve ex_either [wire (ex_asks (B "HTTP/1.1"))]) =
    [crlf_lines [B "HTTP/1.0 101 Switching Protocol"; B "Connection: upgrade"; B "Upgrade: HTTP/1.0"; B "Content-Type: text/html"; []] ++ ok_text (B "HTTP/1.1") []] /\
  answers (ex_serve ex_tunnel [wire (ex_asks (B "HTTP/1.1")) ++ B "hi"]) = [B "raw hi"].
Proof. vm_compute. repeat split; reflexivity. Qed.

(* a chat on a route behind Recover, the others as always: GET /c, then GET /chat, then raw bytes *)
Definition ex_chat : list (list nat * rop (list nat)) :=
  [([], Use [recovering]); ([], Route GET (B "/c") repeat_body []);
   ([], Route GET (B "/chat") (fun w r => HHijack (fun _ => HConnRead (fun x => HConnWrite (B "> " ++ fst x) (fun _ => HRet None w)))) [])].
Definition chat_req : req := Req (Head GET (B "/chat") (B "/chat") None HTTP11 true [] true) [] [].
Definition c_req : req := Req (Head GET (B "/c") (B "/c") None HTTP11 true [] true) [] [].
Example C59_app_case : WillingApp 64 (settled ex_chat) /\ HarmlessMutators ex_chat /\ ~ HasParams (settled ex_chat) /\
  exists x, Running ex_chat x /\ InOrder ex_chat [] (x_mutators x) /\
  let res := shop_serve x [wire c_req ++ wire chat_req ++ wire c_req; B "more"] in
  fst res = EndHijack /\ cl_out (k_client (snd res)) = [ok_text (B "HTTP/1.1") []; B "> " ++ wire c_req] /\ stream (k_client (snd res)) = B "more".
Proof.
  assert (Rec : forall h : handler (list nat), (forall w r, Free (CanBeSent 64) true false (h w r)) -> forall w r, Willing 64 (recovering h w r)).
  { intros h H w r. apply (Fr_try _ (CanBeSent 64)); [apply H|apply Fr_ret; intros f E; injection E as <-; apply Sd_plain; reflexivity|]. intros resp w' Hr. apply Fr_ret. exact Hr. }
  split; [|split; [|split]].
  - split; [|split].
    + intros p m h H. cbn in H. destruct H as [H|[H|[]]]; injection H as <- <- <-; apply Rec; intros w r.
      * apply Fr_body. intros o. apply Fr_ret. intros f E. injection E as <-. apply Sd_plain. reflexivity.
      * apply Fr_hijack. apply Fr_read. intros y. apply Fr_write. intros ok. apply Fr_ret. intros f E. discriminate.
    + intros p h H. destruct H.
    + intros c Hc. unfold error_choice. apply Rec. intros w r. apply tame_free. revert w r. fold (MayPanic 64 (fold_right (fun m acc => m acc) (match handler_for (settled ex_chat) c with Some h => h | None => match handler_for (settled ex_chat) AllErrors with Some h => h | None => default_all_errors end end) [])).
      cbn [fold_right]. destruct (handler_for (settled ex_chat) c) eqn:E; [eapply handler_may; [|exact E]|destruct (handler_for (settled ex_chat) AllErrors) eqn:E'; [eapply handler_may; [|exact E']|apply may_all]];
        intros addr h0 cs H; cbn in H; destruct H as [H|[H|[H|[]]]]; discriminate.
  - intros addr mu H. cbn in H. destruct H as [H|[H|[H|[]]]]; discriminate.
  - intros (p & m & h & t & parts & H1 & H2 & H3). cbn in H1. destruct H1 as [H1|[H1|[]]]; injection H1 as <- <- <-; vm_compute in H2; injection H2 as <-; cbn in H3; intuition discriminate.
  - eexists. split; [apply start_running; vm_compute; reflexivity|]. split; [apply mutators_in_order; apply start_running; vm_compute; reflexivity|]. cbv zeta. split; [|split]; vm_compute; reflexivity.
Qed.
