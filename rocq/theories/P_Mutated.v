(* Properties C72 and C111: servers with the built-in router and any mutators. *)
From Verif Require Import M_Base M_Status M_Method M_Proto M_KeyValue M_Query M_Request M_Parser M_Client M_Body
  M_Response M_Serializer M_Suit M_Path M_Radix M_Router S_Static S_KeyValue S_Chunk S_Head S_Parser S_Body S_Response S_Conn S_Fail S_Split S_Routes S_Router
  S_Serve S_Upgrade S_UpgradeServe S_Mutators S_Mutated
  L_Base L_Body2 L_Chunk L_Conn2 L_Conn3 L_ConnProps L_Router5 L_Serve L_Upgrade L_Mutators L_Mutated L_ServeEx P_Parser.

(* C111: the router behind the mutators is one built by the other calls; these make the same
   routes, catchers and error handlers *)
Theorem C111_behind : forall W (os : list (list nat * rop W)) x, Running os x -> Running (settled os) (without x).
Proof. exact running_settled. Qed.
Print Assumptions C111_behind.
Theorem C111_routes_kept : forall W (os : list (list nat * rop W)), registered (settled os) = registered os /\ caught (settled os) = caught os /\
  forall c, error_choice (settled os) c = error_choice os c.
Proof. exact settled_same. Qed.
Print Assumptions C111_routes_kept.

(* C72, with any mutators and aliases, however they interfere, and with upgrades: each request is
   answered by the handler registered for what the mutators made of it.  Missing: what is
   missing in C07_upgrades_partial. *)
Theorem C72_mutators_partial : forall CS cparse encoded fresh inside,
  DecoderOk CS cparse encoded fresh inside -> forall max, (max < two64)%Z ->
  forall cfg umax kmax vmax fbs defs, distinct_names defs ->
  forall W (os : list (list nat * rop W)) x mus, Running os x -> InOrder os [] mus -> HarmlessMutators os -> OrdinaryApp fbs (settled os) ->
  forall reqs past ups (st : conn CS (world W)) tail, MutatedRoutable os mus reqs ->
  Amid umax kmax vmax fbs defs fresh past ups st ->
  Forall (SoundRequest encoded (cfg_limits cfg umax kmax vmax) max) reqs ->
  Unfinished (cfg_limits cfg umax kmax vmax) tail ->
  stream (k_client st) = concat (map wire reqs) ++ tail ->
  exists n outs closed st1,
    Exchange defs (MutatedTo os mus) reqs (k_world st) past ups outs (k_world st1) closed /\
    cl_out (k_client st1) = cl_out (k_client st) ++ outs /\
    forall fuel, (n <= fuel)%nat ->
      serve cparse max cfg (on_request x) (on_error x) fuel st =
      close_with cparse max (on_error x) (match closed with None => EndRead | Some _ => EndWrite end) st1.
Proof.
  intros CS cparse encoded fresh inside HD max Hmax cfg umax kmax vmax fbs defs Hdefs W os x mus HR HI HM HO reqs past ups st tail HRo HB HG HU HS.
  destruct (whole_exchange CS cparse encoded fresh inside HD max Hmax cfg umax kmax vmax fbs defs Hdefs (world W) (on_request x) (on_error x) reqs past ups st tail
    (mutated_ordinary W os x HR HM mus HI fbs reqs HO HRo) HB HG HU HS) as (n & outs & closed & st1 & C1 & C2 & C3).
  exists n, outs, closed, st1. split; [|auto]. eapply exchange_answers; [|exact C1].
  intros w q resp w1 r' Hi (r & S & R). destruct (mutated_runs W os x HR mus HI reqs q r _ w _ resp w1 r' HRo Hi S R) as (h & r1 & D1 & D2).
  exists r, h, r1. auto.
Qed.
Print Assumptions C72_mutators_partial.

(* an alias for a path that a mutator of another group changes again: GET / is answered by the
   route /hello/{name} with the name bob *)
Definition bob_head : head := Head GET (B "/") (B "/") None HTTP11 true [] true.
Definition bob_req : req := Req bob_head [] [].
Definition ex_bob : list (list nat * rop (list nat)) :=
  [([], Group (B "/api")); ([0]%nat, Mutate (fun r => set_path (r_path r ++ B "/bob") r)); ([], Alias (B "/") (B "/hello"));
   ([], Route GET (B "/hello/{name}") greet []); ([], Route GET (B "/other") greet [])].
Example C72_mutators_case : HarmlessMutators ex_bob /\ ~ PlainAliases ex_bob /\ OrdinaryApp 64 (settled ex_bob) /\ HasParams (settled ex_bob) /\
  exists x, Running ex_bob x /\ MutatedRoutable ex_bob (x_mutators x) [bob_req] /\ Forall (SoundRequest chunked_text ex_lim 100) [bob_req] /\
  cl_out (k_client (snd (shop_serve x [wire bob_req]))) = [ok_text (B "HTTP/1.1") (B "hello bob")].
Proof.
  split; [|split; [|split; [|split]]].
  - intros addr mu H. cbn [ex_bob In] in H. intuition; try discriminate. match goal with K : _ = _ |- _ => injection K as <- <- end. intros r. repeat split; auto.
  - intros (H & _). apply (H [0]%nat (fun r => set_path (r_path r ++ B "/bob") r)). right. left. reflexivity.
  - exact greeter_ordinary.
  - exists (B "/hello/{name}"), GET, greet. eexists. eexists. split; [left; reflexivity|]. split; [vm_compute; reflexivity|]. cbn. auto.
  - eexists. split; [apply start_running; vm_compute; reflexivity|]. split; [|split].
    + intros _ q r _ _. cbn [x_mutators one_by_one fold_left]. unfold set_path. cbn [r_path]. intros H. apply app_eq_nil in H. destruct H as [_ H]. discriminate.
    + apply Forall_cons; [|apply Forall_nil]. constructor; cbn [bob_req q_head q_wire q_text].
      * unfold bob_head. head_ok.
      * head_fits.
      * vm_compute. discriminate.
      * vm_compute. repeat split; discriminate.
    + vm_compute. reflexivity.
Qed.
