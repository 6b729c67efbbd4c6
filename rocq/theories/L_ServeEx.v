(* Examples behind P_Serve.v. *)
From Verif Require Import M_Base M_Status M_Method M_Proto M_KeyValue M_Query M_Request M_Parser M_Client M_Body
  M_Response M_Serializer M_Suit M_Path M_Radix M_Router S_Static S_KeyValue S_Chunk S_Head S_Parser S_Body S_Response S_Conn S_Split S_Routes S_Router S_Serve
  L_Base L_Radix L_Router5 L_Serve L_Chunk L_ConnProps P_Parser.

(* answers with the body of the request, and with the parameter *)
Definition repeat_body : handler (list nat) := fun w r => HBody OBytes (fun o => HRet (Some (set_rbody (out_data o) new_response)) w).
Definition greet : handler (list nat) := fun w r =>
  HRet (Some (set_rbody (B "hello " ++ kv_value (r_params r) (B "name")) new_response)) w.
Definition shop : list (list nat * rop (list nat)) := [([], Route POST (B "/a") repeat_body []); ([], Route GET (B "/c") repeat_body [])].
Definition greeter : list (list nat * rop (list nat)) := [([], Route GET (B "/hello/{name}") greet []); ([], Route GET (B "/other") greet [])].
Definition hello_head : head := Head GET (B "/hello/bob") (B "/hello/bob") None HTTP11 true [] true.
Definition hello_req : req := Req hello_head [] [].

Definition shop_conn (net : list bytes) : conn kstate (world (list nat)) :=
  new_conn 100 100 100 64 [] enc_plain (KSize 0 false) (new_client (map (fun d => (d, None)) net) []) ([], []).
Definition shop_serve (x : runtime (list nat)) (net : list bytes) : ending * conn kstate (world (list nat)) :=
  serve ref_parse 100 ex_cfg (on_request x) (on_error x) 50 (shop_conn net).

Lemma ord_repeat : forall w r, Ordinary 64 (repeat_body w r).
Proof. intros w r. apply Ta_body. intros o. apply Ta_ret. intros f H. injection H as <-. apply Sd_plain. reflexivity. Qed.
Lemma ord_greet : forall w r, Ordinary 64 (greet w r).
Proof. intros w r. apply Ta_ret. intros f H. injection H as <-. apply Sd_plain. reflexivity. Qed.
Lemma ord_405 : forall w r, Ordinary 64 (@default_method_not_allowed (list nat) w r).
Proof.
  intros w r. unfold default_method_not_allowed, resp_header. change (equal_fold (B "Allow") (B "content-type")) with false.
  change (equal_fold (B "Allow") (B "transfer-encoding")) with false. cbn iota. apply Ta_ret. intros f H. injection H as <-. apply Sd_plain. reflexivity.
Qed.
Lemma ord_all : forall w r, Ordinary 64 (@default_all_errors (list nat) w r).
Proof.
  intros w r. apply Ta_ret. intros f H. injection H as <-. apply Sd_plain. unfold resp_error. destruct (env_error (r_env r)) as [[e| |]|]; reflexivity.
Qed.
Lemma plain_nothing : forall os : list (list nat * rop (list nat)), aliases os = [] -> NoMutators os -> PlainAliases os.
Proof. intros os E H. split; [exact H|]. rewrite E. split; [constructor|intros f t []]. Qed.

Lemma shop_registered : registered shop = [(B "/a", POST, repeat_body); (B "/c", GET, repeat_body)].
Proof. reflexivity. Qed.
Lemma greeter_registered : registered greeter = [(B "/hello/{name}", GET, greet); (B "/other", GET, greet)].
Proof. reflexivity. Qed.
Lemma shop_static : ~ HasParams shop.
Proof.
  intros (p & m & h & t & name & H1 & H2 & H3). rewrite shop_registered in H1. cbn [In] in H1. destruct H1 as [H1|[H1|[]]]; injection H1 as <- <- <-;
    vm_compute in H2; injection H2 as <-; cbn in H3; intuition discriminate.
Qed.
Lemma shop_plain : PlainAliases shop.
Proof. apply plain_nothing; [reflexivity|]. intros a mu [H|[H|[]]]; discriminate. Qed.
Lemma shop_ordinary : OrdinaryApp 64 shop.
Proof.
  split; [|split].
  - intros p m h H w r. rewrite shop_registered in H. cbn [In] in H. destruct H as [H|[H|[]]]; injection H as <- <- <-; apply ord_repeat.
  - intros p h [].
  - intros c [-> | ->] w r; [apply ord_all|apply ord_405].
Qed.
Lemma greeter_ordinary : OrdinaryApp 64 greeter.
Proof.
  split; [|split].
  - intros p m h H w r. rewrite greeter_registered in H. cbn [In] in H. destruct H as [H|[H|[]]]; injection H as <- <- <-; apply ord_greet.
  - intros p h [].
  - intros c [-> | ->] w r; [apply ord_all|apply ord_405].
Qed.
Definition hello_template : list seg := [SStatic (B "hello"); SWild (B "name")].
Lemma hello_proper : Proper hello_template.
Proof.
  split; [|split].
  - unfold hello_template. apply Forall_cons; [|apply Forall_cons; [|apply Forall_nil]]; cbn [good_seg].
    + split; [discriminate|]. split; apply not_in_by; reflexivity.
    + split; [apply not_in_by; reflexivity|]. split; apply not_in_by; reflexivity.
  - exact I.
  - intros t' c H. apply (f_equal (fun l => last l (SStatic []))) in H. rewrite last_last in H. discriminate.
Qed.
Lemma other_proper : Proper [SStatic (B "other")].
Proof.
  split; [|split].
  - apply Forall_cons; [|apply Forall_nil]. cbn [good_seg]. split; [discriminate|]. split; apply not_in_by; reflexivity.
  - exact I.
  - intros t' c H. apply (f_equal (fun l => last l (SStatic []))) in H. rewrite last_last in H. discriminate.
Qed.
Lemma greeter_routable : Routable greeter [hello_req].
Proof.
  intros _. split.
  - intros f t [].
  - intros q [<-|[]]. discriminate.
Qed.
Lemma hello_good : GoodRequest chunked_text ex_lim 100 hello_req.
Proof.
  constructor; cbn [hello_req q_head q_wire q_text].
  - unfold hello_head. head_ok.
  - head_fits.
  - reflexivity.
  - vm_compute. discriminate.
  - vm_compute. repeat split; discriminate.
Qed.
Lemma shop_case : let net := [firstn 20 ex_stream; firstn 50 (skipn 20 ex_stream); []; skipn 70 ex_stream] in
  exists x, Running shop x /\ PlainAliases shop /\ OrdinaryApp 64 shop /\ Routable shop ex_reqs /\
  Forall (GoodRequest chunked_text ex_lim 100) ex_reqs /\ Unfinished ex_lim (B "GE") /\
  stream (k_client (shop_conn net)) = concat (map wire ex_reqs) ++ B "GE" /\
  fst (shop_serve x net) = EndRead /\
  cl_out (k_client (snd (shop_serve x net))) =
    [ok_text (B "HTTP/1.1") (B "secret");
     crlf_lines [B "HTTP/1.1 404 Not Found"; B "Content-Type: text/html"; B "Content-Length: 0"; []];
     crlf_lines [B "HTTP/1.1 405 Method Not Allowed"; B "Allow: GET"; B "Content-Type: text/html"; B "Content-Length: 0"; []]].
Proof.
  intros net. eexists. split; [apply start_running; vm_compute; reflexivity|]. split; [exact shop_plain|]. split; [exact shop_ordinary|].
  split; [intros H; destruct (shop_static H)|]. split; [exact ex_reqs_good|]. split; [exact ex_unfinished|].
  split; [vm_compute; reflexivity|]. split; vm_compute; reflexivity.
Qed.
Lemma greeter_case :
  exists x, Running greeter x /\ PlainAliases greeter /\ OrdinaryApp 64 greeter /\ Routable greeter [hello_req] /\
  Forall (GoodRequest chunked_text ex_lim 100) [hello_req] /\
  cl_out (k_client (snd (shop_serve x [wire hello_req]))) = [ok_text (B "HTTP/1.1") (B "hello bob")].
Proof.
  eexists. split; [apply start_running; vm_compute; reflexivity|]. split; [apply plain_nothing; [reflexivity|]; intros a mu [H|[H|[]]]; discriminate|].
  split; [exact greeter_ordinary|]. split; [exact greeter_routable|]. split; [apply Forall_cons; [exact hello_good|apply Forall_nil]|]. vm_compute. reflexivity.
Qed.
Lemma shop_refuses : exists x, Running shop x /\ NoErrorHandlers shop /\ uses shop [] = [] /\
  Malformed ex_cfg 100 100 100 (B "FOO / HTTP/1.1" ++ CRLF ++ B "junk") (fun c => c = 501%N) /\
  let net := [concat (map wire ex_reqs) ++ B "FOO"; B " / HTTP/1.1" ++ CRLF ++ B "junk"] in
  fst (shop_serve x net) = EndParse /\
  skipn 3 (cl_out (k_client (snd (shop_serve x net)))) =
    [crlf_lines [B "HTTP/1.1 501 Not Implemented"; B "Content-Type: text/html"; B "Content-Length: 0"; []]].
Proof.
  eexists. split; [apply start_running; vm_compute; reflexivity|]. split; [intros a h cs [H|[H|[]]]; discriminate|]. split; [reflexivity|]. split.
  - change (B "FOO / HTTP/1.1" ++ CRLF ++ B "junk") with (B "FOO" ++ SP :: (B "/ HTTP/1.1" ++ [CR]) ++ LF :: B "junk").
    apply (Mf_line ex_cfg 100 100 100 (B "FOO") (B "/ HTTP/1.1" ++ [CR]) (B "junk") ErrMethodNotImplemented).
    + apply not_in_by. reflexivity.
    + apply not_in_by. reflexivity.
    + vm_compute. discriminate.
    + apply Lr_method; [discriminate|]. intros H. cbn [method_names In] in H. repeat destruct H as [H|H]; try discriminate. exact H.
  - cbv zeta. split; vm_compute; reflexivity.
Qed.
