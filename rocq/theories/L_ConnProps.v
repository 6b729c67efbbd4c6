(* Examples and witnesses behind P_Conn.v. *)
From Verif Require Import M_Base M_Status M_Method M_Proto M_KeyValue M_Query M_Request M_Parser M_Client M_Body
  M_Response M_Serializer M_Suit S_KeyValue S_Chunk S_Head S_Parser S_Body S_Response S_Conn L_Base L_Body2 L_Chunk L_Conn3 P_Parser.

Definition crlf_lines (ls : list bytes) : bytes := concat (map (fun l => l ++ CRLF) ls).
(* the application state of the examples: a log *)
Definition log := list (bytes * bytes).
(* answers with the body of the request *)
Definition ex_echo (w : log) (r : request) : hprog log :=
  HBody OBytes (fun o => HRet (Some (set_rbody (out_data o) new_response)) (w ++ [(r_path r, out_data o)])).
Definition ex_error (w : log) (r : request) (e : http_error) : hprog log :=
  HRet (Some (set_rbody (he_msg e) (set_code (he_code e) new_response))) (w ++ [(B "error", r_path r)]).
Definition ex_server (net : list bytes) : conn kstate log :=
  new_conn 100 100 100 64 [] enc_plain (KSize 0 false) (new_client (map (fun d => (d, None)) net) []) [].
Definition ex_serve (h : log -> request -> hprog log) (net : list bytes) : ending * conn kstate log :=
  serve ref_parse 100 ex_cfg h ex_error 50 (ex_server net).
Definition answers (x : ending * conn kstate log) : list bytes := cl_out (k_client (snd x)).
Definition ok_text (version body : bytes) : bytes :=
  version ++ B " 200 OK" ++ CRLF ++ B "Content-Type: text/html" ++ CRLF ++ B "Content-Length: " ++ itoa (len body) ++ CRLF ++ CRLF ++ body.

(* ---- C07 ---- *)
Definition ex_post_head : head := Head POST (B "/a") (B "/a") None HTTP11 true [HLine (B "Content-Length") 1 (B "6") true] true.
Definition ex_get_head : head := Head GET (B "/b") (B "/b") None HTTP11 true [] true.
Definition ex_chunked_head : head := Head POST (B "/c") (B "/c") None HTTP11 true [HLine (B "Transfer-Encoding") 1 (B "chunked") true] true.
Definition ex_reqs : list req :=
  [Req ex_post_head (B "secret") (B "secret"); Req ex_get_head [] [];
   Req ex_chunked_head (B "3" ++ CRLF ++ B "abc" ++ CRLF ++ B "0" ++ CRLF ++ CRLF) (B "abc")].
Definition ex_stream : bytes := concat (map wire ex_reqs) ++ B "GE".


Definition ex_lim : limits := cfg_limits ex_cfg 100 100 100.
Lemma not_in_by : forall (c : byte) l, existsb (Byte.eqb c) l = false -> ~ In c l.
Proof.
  intros c l H Hi. assert (E : existsb (Byte.eqb c) l = true).
  { apply existsb_exists. exists c. split; [exact Hi|apply beq_refl]. }
  rewrite E in H. discriminate.
Qed.
Ltac head_ok :=
  unfold wf_head; cbn [h_method h_proto h_path h_decoded h_query h_lines];
  repeat split; try discriminate; try (apply not_in_by; reflexivity);
  [ vm_compute; repeat (apply PD_char; [discriminate|]); apply PD_nil
  | repeat (apply Forall_cons || apply Forall_nil); unfold wf_line; cbn [hl_key hl_value hl_crlf];
    (split; [apply not_in_by; reflexivity|]); (split; [apply not_in_by; reflexivity|]); (split; [apply not_in_by; reflexivity|]);
    match goal with |- context [is_content_length ?l] =>
      let b := eval vm_compute in (is_content_length l) in change (is_content_length l) with b end; cbv iota;
    first [ split; [discriminate|]; split; [repeat constructor|]; reflexivity
          | split; [apply not_in_by; reflexivity|]; split; [discriminate|]; discriminate ]
  | vm_compute; lia .. ].
Ltac head_fits :=
  unfold S_Head.fits; repeat split; try (vm_compute; discriminate);
  repeat (apply Forall_cons || apply Forall_nil); intros _; vm_compute; discriminate.
Lemma ex_post_wf : wf_head ex_post_head. Proof. unfold ex_post_head. head_ok. Qed.
Lemma ex_get_wf : wf_head ex_get_head. Proof. unfold ex_get_head. head_ok. Qed.
Lemma ex_chunked_wf : wf_head ex_chunked_head. Proof. unfold ex_chunked_head. head_ok. Qed.
Lemma ex_post_fits : S_Head.fits ex_lim ex_post_head. Proof. head_fits. Qed.
Lemma ex_get_fits : S_Head.fits ex_lim ex_get_head. Proof. head_fits. Qed.
Lemma ex_chunked_fits : S_Head.fits ex_lim ex_chunked_head. Proof. head_fits. Qed.

Lemma ex_reqs_good : Forall (GoodRequest chunked_text ex_lim 100) ex_reqs.
Proof.
  unfold ex_reqs. repeat (apply Forall_cons || apply Forall_nil); constructor; cbn [q_head q_wire q_text].
  - exact ex_post_wf.
  - exact ex_post_fits.
  - reflexivity.
  - vm_compute. discriminate.
  - vm_compute. repeat split; discriminate.
  - exact ex_get_wf.
  - exact ex_get_fits.
  - reflexivity.
  - vm_compute. discriminate.
  - vm_compute. repeat split; discriminate.
  - exact ex_chunked_wf.
  - exact ex_chunked_fits.
  - reflexivity.
  - vm_compute. discriminate.
  - change (Chunked (B "3" ++ CRLF ++ B "abc" ++ CRLF ++ B "0" ++ CRLF ++ CRLF) (B "abc")).
    apply (Ch_more (B "3") (B "abc") _ []); try discriminate; [reflexivity|].
    apply (Ch_last (B "0")); [discriminate|reflexivity].
Qed.
Lemma ex_unfinished : Unfinished ex_lim (B "GE").
Proof.
  exists ex_get_head, (skipn 2 (render_head ex_get_head)).
  split; [exact ex_get_wf|]. split; [exact ex_get_fits|]. split; [vm_compute; discriminate|reflexivity].
Qed.

Lemma ex_ordinary : forall w r, Ordinary 64 (ex_echo w r).
Proof.
  intros w r. apply Ta_body. intros o. apply Ta_ret. intros f H. injection H as <-. apply Sd_plain. reflexivity.
Qed.
Lemma ex_between : forall net, Between 100 100 100 64 [] kfresh [] (ex_server net).
Proof. intros net. apply new_between; [reflexivity|]. constructor. Qed.

(* the stale body of C11, seen from a connection: the handler of /b and /c drops its body
   before asking for it *)
Definition ex_stale (w : log) (r : request) : hprog log :=
  if beqb (r_path r) (B "/a") then ex_echo w r else HBody ODiscard (fun _ => ex_echo w r).

(* ---- C47 ---- *)
Definition ex_up10 : bytes := crlf_lines [B "GET / HTTP/1.0"; B "Connection: keep-alive, Upgrade"; B "Upgrade: HTTP/1.1"; []].
Definition ex_up10_keep : bytes := crlf_lines [B "GET / HTTP/1.0"; B "Upgrade: HTTP/1.1"; []].
Definition ex_get10 : bytes := crlf_lines [B "GET / HTTP/1.0"; B "Connection: keep-alive"; []].

(* ---- C59 ---- *)
(* takes the connection over, reads once and sends it back *)
Definition ex_take : option berr -> hprog log := fun _ =>
  HConnRead (fun x => HConnWrite (B "raw " ++ fst x) (fun _ => HRet None [])).
Definition ex_tunnel (w : log) (r : request) : hprog log := HHijack ex_take.
Lemma ex_takeover : forall w r, Takeover ex_take (ex_tunnel w r).
Proof. intros w r. apply To_hijack. Qed.
