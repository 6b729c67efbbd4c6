(* Property C112: applications behind Recover. *)
From Verif Require Import M_Base M_Status M_Method M_Proto M_KeyValue M_Query M_Request M_Parser M_Client M_Body
  M_Response M_Serializer M_Suit M_Path M_Radix M_Router M_Middleware M_Bundled S_Static S_KeyValue S_Chunk S_Head S_Parser S_Body S_Response S_Conn S_Fail S_Split S_Routes S_Router
  S_Serve S_Upgrade S_UpgradeServe S_Mutators S_Mutated S_Guarded
  L_Base L_Body2 L_Chunk L_Conn2 L_Conn3 L_ConnProps L_Router5 L_Serve L_ServeEx L_Upgrade L_Mutated L_Guarded P_Parser P_Mutated.

(* C112: for an application whose router uses Recover first, handlers, catchers, error handlers and
   other middlewares may panic wherever they like: it counts as ordinary, and all that is proved
   about ordinary applications holds of it *)
Theorem C112_app : forall W fbs (os : list (list nat * rop W)), Guarded fbs os -> OrdinaryApp fbs os.
Proof. exact guarded_ordinary. Qed.
Print Assumptions C112_app.
(* ... so is what its error handlers answer to bytes that are no request (C73, C82, C105) *)
Theorem C112_app_errors : forall W (next : handler W) w r, Aloof NoAttachment true (next w r) -> Detached (recovering next w r).
Proof. exact recover_detached. Qed.
Print Assumptions C112_app_errors.
(* ... for one, every request is answered by its handler, or with the answer of Recover if that
   panics (C112_recover_exact).  Missing: as in C72_mutators_partial. *)
Theorem C112_app_partial : forall CS cparse encoded fresh inside,
  DecoderOk CS cparse encoded fresh inside -> forall max, (max < two64)%Z ->
  forall cfg umax kmax vmax fbs defs, distinct_names defs ->
  forall W (os : list (list nat * rop W)) x mus, Running os x -> InOrder os [] mus -> HarmlessMutators os -> Guarded fbs os ->
  forall reqs past ups (st : conn CS (world W)) tail, MutatedRoutable os mus reqs ->
  Amid umax kmax vmax fbs defs fresh past ups st ->
  Forall (SoundRequest encoded (cfg_limits cfg umax kmax vmax) max) reqs ->
  Unfinished (cfg_limits cfg umax kmax vmax) tail ->
  stream (k_client st) = concat (map wire reqs) ++ tail ->
  exists n outs closed st1,
    Exchange defs (MutatedTo os mus) reqs (k_world st) past ups outs (k_world st1) closed /\
    cl_out (k_client st1) = cl_out (k_client st) ++ outs /\
    forall fuel, (n <= fuel)%nat ->
      serve cparse max cfg (on_request x) (on_error x) fuel st =
      close_with cparse max (on_error x) (match closed with None => EndRead | Some _ => EndWrite end) st1.
Proof.
  intros CS cparse encoded fresh inside HD max Hmax cfg umax kmax vmax fbs defs Hdefs W os x mus HR HI HM HG.
  exact (C72_mutators_partial CS cparse encoded fresh inside HD max Hmax cfg umax kmax vmax fbs defs Hdefs W os x mus HR HI HM (guarded_settled W fbs os HG)).
Qed.
Print Assumptions C112_app_partial.

(* a route whose handler panics after having read the body, an error handler that panics, and
   Recover: three requests, then bytes that are no request *)
Definition ex_frail : list (list nat * rop (list nat)) :=
  [([], Use [recovering]); ([], Route POST (B "/a") (fun w r => HBody OBytes (fun _ => HCrash)) []); ([], Route GET (B "/c") repeat_body []);
   ([], OnErrors (fun w r => HCrash) [400%N])].
Definition ex_500 : bytes := crlf_lines [B "HTTP/1.1 500 Internal Server Error"; B "Content-Type: text/html"; B "Content-Length: 0"; []].
Example C112_app_case : Guarded 64 ex_frail /\ (forall w r, Detached (error_choice ex_frail 400%N w r)) /\
  exists x, Running ex_frail x /\
  let net := [concat (map wire ex_reqs); B "GET /b HTTP/1.1" ++ CRLF ++ B "Content-Length: 1"; B "x"] in
  fst (shop_serve x net) = EndParse /\
  cl_out (k_client (snd (shop_serve x net))) =
    [ex_500; crlf_lines [B "HTTP/1.1 404 Not Found"; B "Content-Type: text/html"; B "Content-Length: 0"; []];
     crlf_lines [B "HTTP/1.1 405 Method Not Allowed"; B "Allow: GET"; B "Content-Type: text/html"; B "Content-Length: 0"; []]; ex_500].
Proof.
  split; [|split].
  - assert (R : PassesOn 64 (@recovering (list nat))).
    { intros next H w r. apply (Ta_try (CanBeSent 64) (CanBeSent 64)); [apply H|apply Ta_ret; intros f Hf; injection Hf as <-; apply Sd_plain; reflexivity|]. intros resp w' Hr. apply Ta_ret. exact Hr. }
    constructor.
    + intros addr m p h ms H. cbn [ex_frail In] in H. destruct H as [H|[H|[H|[H|[]]]]]; try discriminate; injection H as <- <- <- <- <-; (split; [|constructor]); intros w r.
      * apply Ta_body. intros o. apply Ta_crash.
      * apply Ta_body. intros o. apply Ta_ret. intros f H. injection H as <-. apply Sd_plain. reflexivity.
    + intros addr p h ms H. cbn [ex_frail In] in H. destruct H as [H|[H|[H|[H|[]]]]]; discriminate.
    + intros addr h cs H. cbn [ex_frail In] in H. destruct H as [H|[H|[H|[H|[]]]]]; try discriminate; injection H as <- <- <-. intros w r. apply Ta_crash.
    + intros addr ms H. cbn [ex_frail In] in H. destruct H as [H|[H|[H|[H|[]]]]]; try discriminate; injection H as <- <-. constructor; [exact R|constructor].
    + eexists. reflexivity.
  - intros w r. apply C112_app_errors. apply Dt_crash.
  - eexists. split; [apply start_running; vm_compute; reflexivity|]. cbv zeta. split; vm_compute; reflexivity.
Qed.
