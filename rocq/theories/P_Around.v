(* Properties C33, C112: a middleware used before all others; an application and the same application
   using Recover first. *)
From Verif Require Import M_Base M_Status M_Method M_Proto M_KeyValue M_Query M_Request M_Parser M_Client M_Body
  M_Response M_Serializer M_Suit M_Path M_Radix M_Router M_Middleware M_Bundled S_KeyValue S_Chunk S_Head S_Parser S_Body S_Response S_Conn S_Split S_Routes S_Router S_Serve S_Guarded S_Recovered S_Around
  L_Base L_Chunk L_Conn2 L_ConnProps L_Router5 L_RouterEx L_Serve L_ServeEx L_Recovered L_Around L_Around2 P_Parser P_Guarded P_Frail.

(* C33: for all applications of the built-in router and all middlewares: with one more middleware, used
   first on the router, every request goes where it went, with the same parameters, path and Allow
   value, and all handlers, catchers and error handlers, and nothing else, are behind it *)
Theorem C33_first : forall W (f : middleware W) (os : list (list nat * rop W)) x, Running os x ->
  exists x', Running (([], Use [f]) :: os) x' /\ Around f x x'.
Proof. exact running_around. Qed.
Print Assumptions C33_first.
(* one that counts: three requests and the end of the connection *)
Definition ex_count : middleware (list nat) := fun next w r => next (0%nat :: fst w, snd w) r.
Example C33_first_case : exists x x', Running ex_frail x /\ Running (([], Use [ex_count]) :: ex_frail) x' /\
  let fin x := shop_serve x [ex_stream] in
  cl_out (k_client (snd (fin x))) = cl_out (k_client (snd (fin x'))) /\ List.length (cl_out (k_client (snd (fin x)))) = 3%nat /\
  fst (k_world (snd (fin x))) = [] /\ fst (k_world (snd (fin x'))) = [0; 0; 0; 0]%nat.
Proof.
  eexists. eexists. split; [apply start_running; vm_compute; reflexivity|]. split; [apply start_running; vm_compute; reflexivity|].
  cbv zeta. split; [vm_compute; reflexivity|]. split; [vm_compute; reflexivity|]. split; [vm_compute; reflexivity|]. vm_compute. reflexivity.
Qed.

(* C112: for all applications of the built-in router, all bytes in all reads, also handlers that take
   the connection over: the application that uses Recover first does the same on a connection, unless
   that ends in a panic; and then what had been sent until then is the same.  So whatever is proved
   of applications behind Recover (C112_app, C105, C72) holds without it up to the first panic. *)
Theorem C112_app_until_panic : forall CS cparse max cfg W (os : list (list nat * rop W)) x, Running os x ->
  exists x', Running (([], Use [recovering]) :: os) x' /\ Around recovering x x' /\
  forall fuel (st : conn CS (world W)),
  let plain := serve cparse max cfg (on_request x) (on_error x) fuel st in
  let safe := serve cparse max cfg (on_request x') (on_error x') fuel st in
  (fst plain <> EndPanic -> safe = plain) /\ SentFirst (snd plain) (snd safe).
Proof.
  intros CS cparse max cfg W os x HR. destruct (running_around W recovering os x HR) as (x' & HR' & A).
  exists x'. split; [exact HR'|]. split; [exact A|]. intros fuel st plain safe. subst plain safe.
  destruct (until_panic CS cparse max cfg (world W) (on_request x) (on_request x') (on_error x) (on_error x')
    (request_unless CS W cparse max x x' A) (error_unless CS W cparse max x x' A) fuel st) as [E|[E K]].
  - rewrite E. split; [reflexivity|]. exists []. symmetry. apply app_nil_r.
  - split; [intros H; contradiction|exact K].
Qed.
Print Assumptions C112_app_until_panic.

(* ... and that application is one of those, whatever in it may panic *)
Theorem C112_app_guarded : forall W fbs (os : list (list nat * rop W)), Panicky fbs os ->
  Guarded fbs (([], Use [recovering]) :: os) /\ OrdinaryApp fbs (([], Use [recovering]) :: os).
Proof.
  intros W fbs os [H1 H2 H3 H4].
  assert (R : PassesOn fbs (@recovering W)).
  { intros next H w r. apply (Ta_try (CanBeSent fbs) (CanBeSent fbs)); [apply H|apply Ta_ret; intros f Hf; injection Hf as <-; apply Sd_plain; reflexivity|]. intros resp w' Hr. apply Ta_ret. exact Hr. }
  assert (G : Guarded fbs (([], Use [recovering]) :: os)).
  { constructor.
    - intros addr m p h ms [H|H]; [discriminate|]. eapply H1. exact H.
    - intros addr p h ms [H|H]; [discriminate|]. eapply H2. exact H.
    - intros addr h cs [H|H]; [discriminate|]. eapply H3. exact H.
    - intros addr ms [H|H]; [|eapply H4; exact H]. injection H as <- <-. constructor; [exact R|constructor].
    - eexists. reflexivity. }
  split; [exact G|]. apply C112_app. exact G.
Qed.
Print Assumptions C112_app_guarded.

(* the handler of the second of three requests panics: behind Recover all three are answered; without
   it only the first; what is no request is refused alike *)
Definition ex_garbage : bytes := B "GET /c HTTP/1.1" ++ CRLF ++ B "Content-Length: x" ++ CRLF ++ CRLF.
Definition ex_405 : bytes := crlf_lines [B "HTTP/1.1 405 Method Not Allowed"; B "Allow: GET"; B "Content-Type: text/html"; B "Content-Length: 0"; []].
Definition ex_400 : bytes := crlf_lines [B "HTTP/1.1 400 Bad Request"; B "Content-Type: text/html"; B "Content-Length: 0"; []].
Example C112_app_until_panic_case :
  Panicky 64 ex_broken /\ exists x x', Running ex_broken x /\ Running (([], Use [recovering]) :: ex_broken) x' /\
  fst (shop_serve x [ex_stream]) = EndPanic /\
  cl_out (k_client (snd (shop_serve x [ex_stream]))) = [ok_text (B "HTTP/1.1") (B "secret")] /\
  cl_out (k_client (snd (shop_serve x' [ex_stream]))) = [ok_text (B "HTTP/1.1") (B "secret"); ex_500; ex_405] /\
  cl_out (k_client (snd (shop_serve x [ex_garbage]))) = [ex_400] /\
  cl_out (k_client (snd (shop_serve x' [ex_garbage]))) = [ex_400].
Proof.
  split.
  { constructor; cbn [ex_broken In]; intros; intuition; try discriminate;
      repeat match goal with K : (_, _) = (_, _) |- _ => injection K as <- <- <- <- <- end; try apply Forall_nil; intros w r;
      repeat (apply Ta_body; intros ?); solve [apply Ta_crash|apply Ta_ret; intros f Hf; injection Hf as <-; apply Sd_plain; reflexivity]. }
  eexists. eexists. split; [apply start_running; vm_compute; reflexivity|]. split; [apply start_running; vm_compute; reflexivity|].
  split; [vm_compute; reflexivity|]. split; [vm_compute; reflexivity|]. split; [vm_compute; reflexivity|]. split; [vm_compute; reflexivity|]. vm_compute. reflexivity.
Qed.
