(* Properties C41, C63: listeners. *)
From Verif Require Import M_Base M_Status M_Method M_Proto M_KeyValue M_Query M_Request M_Parser M_Client M_Body
  M_Response M_Serializer M_Suit M_Middleware M_App S_Chunk S_App L_Chunk L_App P_Parser L_ConnProps L_ErrExact.

(* every address can be bound; the socket is its address *)
Definition ex_listen (k : lkind) (addr : bytes) : option bytes := Some addr.
Definition ex_sources : list source := app_https (B ":443") (B "c") (B "k") (app_new (B ":80")).

(* ------------------------------------------------------------------------------------ *)
(* C41: false: New(":80").HTTPS(":443", ...): the connections of port 80 are marked as
   encrypted, so HTTPSOnly lets them pass *)
Theorem C41_refuted : conn_handler (bind ex_listen ex_sources) 0 = Some (Http enc_tls) /\
  wanted (nth 0 ex_sources no_source) = Http enc_plain /\ so_addr (nth 0 ex_sources no_source) = B "0.0.0.0:80" /\
  ~ OwnHandlers ex_sources (bind ex_listen ex_sources) /\
  forall host port r, env_encryption (r_env r) = enc_tls -> https_only host port r = None.
Proof.
  split; [vm_compute; reflexivity|]. split; [vm_compute; reflexivity|]. split; [vm_compute; reflexivity|]. split.
  - intros H. specialize (H 0%nat (Source (B "0.0.0.0:80") LPlain None)). assert (E : Some (Http enc_tls) = Some (Http enc_plain)) by (apply H; vm_compute; reflexivity). discriminate.
  - intros host port r H. unfold https_only. rewrite H. reflexivity.
Qed.
Print Assumptions C41_refuted.
(* C41: in general the handler of the last source is used for all listeners *)
Theorem C41_last : forall Sock (listen : lkind -> bytes -> option Sock) srcs s servers var, bind listen (srcs ++ [s]) = Bound servers var ->
  List.length servers = S (List.length srcs) /\ forall i, (i < List.length servers)%nat -> conn_handler (Bound servers var) i = Some (wanted s).
Proof. exact last_handler. Qed.
Print Assumptions C41_last.
(* C41: so every listener has its own handler exactly if all ask for the same *)
Theorem C41_same_partial : forall Sock (listen : lkind -> bytes -> option Sock) srcs servers var, bind listen srcs = Bound servers var ->
  (OwnHandlers srcs (Bound servers var) <-> forall s s', In s srcs -> In s' srcs -> wanted s = wanted s').
Proof. exact own_handlers. Qed.
Print Assumptions C41_same_partial.
Example C41_example : exists servers var, bind ex_listen (app_new (B ":80")) = Bound servers var /\ conn_handler (Bound servers var) 0 = Some (Http enc_plain).
Proof. eexists. eexists. split; vm_compute; reflexivity. Qed.

(* C41: on one connection only the first request has the mark of the handler; for all streams
   and applications, all later ones are marked as plain.  [noting] is the application that
   also notes the marks. *)
Theorem C41_first_partial : forall CS cparse max_body cfg W (on_request : W -> request -> hprog W) on_error fuel umax kmax vmax fbs defs enc (cs : CS) c w,
  let st := serve cparse max_body cfg (noting on_request) (passing on_error) fuel (new_conn umax kmax vmax fbs defs enc cs c (w, [])) in
  snd (k_world (snd st)) = [] \/ exists k, snd (k_world (snd st)) = enc :: repeat enc_plain k.
Proof. exact marks. Qed.
Print Assumptions C41_first_partial.
(* C41: an encrypted connection with HTTPSOnly: the second request is redirected *)
Definition ex_secure (w : log) (r : request) : hprog log :=
  match https_only [] (B "443") r with
  | None => HRet (Some new_response) (w ++ [(r_path r, B "served")])
  | Some f => HRet (Some f) (w ++ [(r_path r, B "redirected")])
  end.
Definition ex_tls (net : list bytes) : ending * conn kstate log :=
  serve ref_parse 100 ex_cfg ex_secure ex_error 50
    (new_conn 100 100 100 64 [] enc_tls (KSize 0 false) (new_client (map (fun d => (d, None)) net) []) []).
Definition ex_get_text : bytes := crlf_lines [B "GET /a HTTP/1.1"; B "Host: a.com"; []].
Theorem C41_second_refuted : exists log1, k_world (snd (ex_tls [ex_get_text; ex_get_text])) = log1 /\
  firstn 2 log1 = [(B "/a", B "served"); (B "/a", B "redirected")].
Proof. eexists. split; [reflexivity|]. vm_compute. reflexivity. Qed.
Print Assumptions C41_second_refuted.

(* ------------------------------------------------------------------------------------ *)
(* C63: false: the listeners bound before the failing one stay open; in general exactly those *)
Theorem C63_refuted : exists (listen : lkind -> bytes -> option bytes) srcs opened, bind listen srcs = BindFailed opened /\ opened = [B "0.0.0.0:80"].
Proof.
  exists (fun k addr => match k with LPlain => Some addr | _ => None end), ex_sources. eexists. split; vm_compute; reflexivity.
Qed.
Print Assumptions C63_refuted.
Theorem C63_open_partial : forall Sock (listen : lkind -> bytes -> option Sock) srcs opened, bind listen srcs = BindFailed opened ->
  exists before s after, srcs = before ++ s :: after /\ listen (so_listen s) (so_addr s) = None /\
    map Some opened = map (fun s => listen (so_listen s) (so_addr s)) before.
Proof. exact failed_bind. Qed.
Print Assumptions C63_open_partial.
(* C63: exactly then *)
Theorem C63_exact : forall Sock (listen : lkind -> bytes -> option Sock) srcs opened, bind listen srcs = BindFailed opened <->
  exists before s after, srcs = before ++ s :: after /\ listen (so_listen s) (so_addr s) = None /\
    map Some opened = map (fun s => listen (so_listen s) (so_addr s)) before.
Proof. exact bind_exact. Qed.
Print Assumptions C63_exact.
(* C63: so nothing stays open exactly when it is the first one that can not be bound *)
Theorem C63_clean_exact : forall Sock (listen : lkind -> bytes -> option Sock) s srcs,
  bind listen (s :: srcs) = BindFailed [] <-> listen (so_listen s) (so_addr s) = None.
Proof. exact bind_clean_exact. Qed.
Print Assumptions C63_clean_exact.
