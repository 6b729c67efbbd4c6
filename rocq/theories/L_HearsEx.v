(* Lemmas: examples of connections a client reads. *)
From Verif Require Import M_Base M_Status M_Method M_Proto M_KeyValue M_Query M_Request M_Parser M_Client M_Body
  M_Response M_Serializer M_Suit S_KeyValue S_Chunk S_Head S_Parser S_Body S_Response S_Conn S_Hears
  L_Base L_Head L_Body L_Body2 L_Chunk L_Response L_Response2 L_Response3 L_Attach L_Conn L_Conn2 L_Conn3 L_ConnProps L_Talk3 L_Hears.

Theorem heard_connection : forall CS cparse encoded fresh inside,
  DecoderOk CS cparse encoded fresh inside -> forall max, (max < two64)%Z ->
  forall cfg umax kmax vmax fbs defs, distinct_names defs -> Forall clean_field defs -> Forall (fun e => ~ framing_name (fst e)) defs ->
  forall W (on_request : W -> request -> hprog W) (on_error : W -> request -> http_error -> hprog W),
  forall reqs past (st : conn CS W) tail,
  (forall q w r, In q reqs -> Shows (q_head q) r -> Ordinary fbs (on_request w r)) ->
  (forall q w r resp w1 r', In q reqs -> Shows (q_head q) r ->
    HRun (more_of (q_head q)) (on_request w r) r (fresh_view (q_text q)) resp w1 r' ->
    Legible defs (h_proto (q_head q)) (not_nil resp) /\ r_method r' = r_method r) ->
  Between umax kmax vmax fbs defs fresh past st ->
  Forall (GoodRequest encoded (cfg_limits cfg umax kmax vmax) max) reqs ->
  Unfinished (cfg_limits cfg umax kmax vmax) tail ->
  stream (k_client st) = concat (map wire reqs) ++ tail ->
  exists n outs closed st1 ms,
    cl_out (k_client st1) = cl_out (k_client st) ++ outs /\
    Correspondence defs on_request reqs (k_world st) past ms (k_world st1) closed /\
    (forall rest, GetsAll (map asks_head (firstn (List.length ms) reqs)) (concat outs ++ rest) ms rest) /\
    forall fuel, (n <= fuel)%nat ->
      serve cparse max cfg on_request on_error fuel st =
      close_with cparse max on_error (match closed with None => EndRead | Some _ => EndWrite end) st1.
Proof.
  intros CS cparse encoded fresh inside HD max Hmax cfg umax kmax vmax fbs defs Hn Hc Hf W on_request on_error reqs past st tail Ho HL Hb Hg Hu Hs.
  destruct (whole_connection CS cparse encoded fresh inside HD max Hmax cfg umax kmax vmax fbs defs Hn W on_request on_error reqs past st tail Ho Hb Hg Hu Hs)
    as (n & outs & closed & st1 & C & E & S).
  destruct (heard W defs on_request Hc Hf _ _ _ _ _ _ C HL) as (ms & D & G).
  exists n, outs, closed, st1, ms. auto.
Qed.

(* ---- examples ---- *)
Definition ex_get (path : bytes) : req := Req (Head GET path path None HTTP11 true [] true) [] [].
Lemma ex_gets_good : Forall (GoodRequest chunked_text ex_lim 100) [ex_get (B "/a"); ex_get (B "/b")].
Proof.
  constructor; [|constructor; [|constructor]]; (constructor; cbn [ex_get q_head q_wire q_text];
    [head_ok|head_fits|reflexivity|vm_compute; discriminate|vm_compute; repeat split; discriminate]).
Qed.
Definition ex_forged (w : log) (r : request) : hprog log :=
  HRet (Some (if beqb (r_path r) (B "/a") then set_rbody (ok_text (B "HTTP/1.1") (B "forged")) (set_code 204%N new_response)
              else set_rbody (B "true") new_response)) (w ++ [(r_path r, [])]).
Definition ex_remethod (w : log) (r : request) : hprog log :=
  HUpdate (set_method HEAD) (HRet (Some (set_rbody (B "hello") new_response)) (w ++ [(r_path r, [])])).
Lemma plain_ret : forall (f : fields) (w : log), f_att f = None -> Ordinary 64 (HRet (Some f) w).
Proof. intros f w H. apply Ta_ret. intros g E. injection E as <-. apply Sd_plain. exact H. Qed.
Ltac reads := apply Gt_length; [vm_compute; reflexivity|vm_compute; discriminate].
Lemma forged_answer : exists m1 m2 m3,
  (forall w r, Ordinary 64 (ex_forged w r)) /\
  Forall (GoodRequest chunked_text ex_lim 100) [ex_get (B "/a"); ex_get (B "/b")] /\
  k_world (snd (ex_serve ex_forged [concat (map wire [ex_get (B "/a"); ex_get (B "/b")])])) = [(B "/a", []); (B "/b", []); (B "error", B "/b")] /\
  m_body m2 = B "forged" /\ m_body m3 = B "true" /\
  GetsAll [false; false; false] (concat (answers (ex_serve ex_forged [concat (map wire [ex_get (B "/a"); ex_get (B "/b")])]))) [m1; m2; m3] [].
Proof.
  assert (G : exists m1 m2 m3, GetsAll [false; false; false] (concat (answers (ex_serve ex_forged [concat (map wire [ex_get (B "/a"); ex_get (B "/b")])]))) [m1; m2; m3] [] /\
    m_body m2 = B "forged" /\ m_body m3 = B "true").
  { vm_compute. do 3 eexists. split.
    - eapply Ga_next; [reads|]. eapply Ga_next; [reads|]. eapply Ga_next; [reads|]. apply Ga_end.
    - split; reflexivity. }
  destruct G as (m1 & m2 & m3 & G & G2 & G3). exists m1, m2, m3.
  split; [|split; [exact ex_gets_good|split; [vm_compute; reflexivity|auto]]].
  intros w r. apply plain_ret. destruct (beqb (r_path r) (B "/a")); reflexivity.
Qed.
Lemma method_changed : exists m1 m2 rest,
  (forall w r, Ordinary 64 (ex_remethod w r)) /\
  Forall (GoodRequest chunked_text ex_lim 100) [ex_get (B "/a"); ex_get (B "/b")] /\
  GetsAll [false; false] (concat (answers (ex_serve ex_remethod [concat (map wire [ex_get (B "/a"); ex_get (B "/b"); ex_get (B "/a")])]))) [m1; m2] rest /\
  m_body m1 = B "HTTP/" /\ m_version m2 = B "1.1" /\ m_body m2 = B "HTTP/".
Proof.
  assert (G : exists m1 m2 rest, GetsAll [false; false] (concat (answers (ex_serve ex_remethod [concat (map wire [ex_get (B "/a"); ex_get (B "/b"); ex_get (B "/a")])]))) [m1; m2] rest /\
    m_body m1 = B "HTTP/" /\ m_version m2 = B "1.1" /\ m_body m2 = B "HTTP/").
  { vm_compute. do 3 eexists. split; [|repeat split]. eapply Ga_next; [reads|]. eapply Ga_next; [reads|]. apply Ga_end. reflexivity. reflexivity. reflexivity. }
  destruct G as (m1 & m2 & rest & G & G2). exists m1, m2, rest.
  split; [|split; [exact ex_gets_good|split; [exact G|exact G2]]].
  intros w r. apply Ta_update; [intros r0; repeat split; auto|]. apply plain_ret. reflexivity.
Qed.

(* streams for /b, echoes the rest *)
Definition ex_files (w : log) (r : request) : hprog log :=
  if beqb (r_path r) (B "/b") then HRet (Some (set_att (Some (Att (reader_of [B "abc"; B "de"] (B "f")) 0 true 0)) new_response)) (w ++ [(r_path r, [])])
  else ex_echo w r.
Definition ex_talk : list req :=
  [Req ex_post_head (B "secret") (B "secret"); Req (Head HEAD (B "/b") (B "/b") None HTTP11 true [] true) [] []; Req ex_get_head [] [];
   Req ex_chunked_head (B "3" ++ CRLF ++ B "abc" ++ CRLF ++ B "0" ++ CRLF ++ CRLF) (B "abc")].
Lemma ex_talk_good : Forall (GoodRequest chunked_text ex_lim 100) ex_talk.
Proof.
  pose proof ex_reqs_good as H. inversion H as [|? ? H1 H']; subst. constructor; [exact H1|]. constructor; [|exact H'].
  constructor; cbn [q_head q_wire q_text]; [head_ok|head_fits|reflexivity|vm_compute; discriminate|vm_compute; repeat split; discriminate].
Qed.
Lemma renderable_new : forall b a, Renderable (set_rbody b new_response) /\ Renderable (set_att a new_response).
Proof. intros b a. split; (split; [constructor|split; [apply cleanb_ok; reflexivity|split; [apply cleanb_ok; reflexivity|constructor]]]). Qed.
Lemma ex_files_ordinary : forall w r, Ordinary 64 (ex_files w r).
Proof.
  intros w r. unfold ex_files. destruct (beqb (r_path r) (B "/b")); [|apply ex_ordinary]. apply Ta_ret. intros f E. injection E as <-.
  apply (Sd_stream _ _ (Att (reader_of [B "abc"; B "de"] (B "f")) 0 true 0) [B "abc"; B "de"] (B "f") []); [reflexivity|vm_compute; discriminate|reflexivity|].
  repeat constructor; vm_compute; try lia; reflexivity.
Qed.
Lemma ex_files_legible : forall q w r resp w1 r', In q ex_talk -> Shows (q_head q) r ->
    HRun (more_of (q_head q)) (ex_files w r) r (fresh_view (q_text q)) resp w1 r' ->
    Legible [] (h_proto (q_head q)) (not_nil resp) /\ r_method r' = r_method r.
Proof.
  intros q w r resp w1 r' Hq _ (v' & H). assert (P : h_proto (q_head q) = HTTP11) by (cbn [In ex_talk] in Hq; intuition (subst; reflexivity)).
  rewrite P. clear Hq P. unfold ex_files in H. destruct (beqb (r_path r) (B "/b")).
  - inversion H; subst. split; [|reflexivity]. constructor; try reflexivity.
    + cbn. lia.
    + apply (renderable_new [] _).
    + constructor.
    + discriminate.
    + intros a pieces last more E Z. injection E as <-. discriminate Z.
  - unfold ex_echo in H. inversion H; subst. match goal with X : HSteps _ (HRet _ _) _ _ _ _ _ |- _ => inversion X; subst end.
    split; [|reflexivity]. constructor; try reflexivity.
    + cbn. lia.
    + eapply (fun b => proj1 (renderable_new b None)).
    + constructor.
    + discriminate.
    + discriminate.
Qed.
Lemma files_heard : let net := [concat (map wire ex_talk) ++ B "GE"] in
  Forall (GoodRequest chunked_text ex_lim 100) ex_talk /\ Unfinished ex_lim (B "GE") /\
  (forall w r, Ordinary 64 (ex_files w r)) /\
  (forall q w r resp w1 r', In q ex_talk -> Shows (q_head q) r ->
    HRun (more_of (q_head q)) (ex_files w r) r (fresh_view (q_text q)) resp w1 r' ->
    Legible [] (h_proto (q_head q)) (not_nil resp) /\ r_method r' = r_method r) /\
  exists ms, GetsAll [false; true; false; false] (concat (answers (ex_serve ex_files net))) ms [] /\
    map m_body ms = [B "secret"; []; B "abcdef"; B "abc"] /\ map m_code ms = [200; 200; 200; 200]%N.
Proof.
  cbv zeta. split; [exact ex_talk_good|]. split; [exact ex_unfinished|]. split; [exact ex_files_ordinary|]. split; [exact ex_files_legible|].
  assert (G : exists ms, GetsAll [false; true; false; false] (concat (answers (ex_serve ex_files [concat (map wire ex_talk) ++ B "GE"]))) ms [] /\
    map m_body ms = [B "secret"; []; B "abcdef"; B "abc"] /\ map m_code ms = [200; 200; 200; 200]%N); [|exact G].
  vm_compute. do 1 eexists. split.
  - eapply Ga_next; [reads|]. eapply Ga_next; [reads|].
    eapply (Ga_next _ _ _ _ (ok_text (B "HTTP/1.1") (B "abc"))); [|eapply Ga_next; [reads|apply Ga_end]].
    eapply (Gt_chunked _ _ _ _ _ _ _ (concat [B "3"; CRLF; B "abc"; CRLF; B "2"; CRLF; B "de"; CRLF; B "1"; CRLF; B "f"; CRLF; B "0"; CRLF; CRLF])).
    + vm_compute. reflexivity.
    + vm_compute. reflexivity.
    + vm_compute. reflexivity.
    + reflexivity.
    + reflexivity.
    + vm_compute. reflexivity.
    + vm_compute. reflexivity.
    + apply (Ch_more (B "3") (B "abc") _ (B "def")); [discriminate|discriminate|reflexivity|].
      apply (Ch_more (B "2") (B "de") _ (B "f")); [discriminate|discriminate|reflexivity|].
      apply (Ch_more (B "1") (B "f") _ []); [discriminate|discriminate|reflexivity|].
      apply (Ch_last (B "0")); [discriminate|reflexivity].
  - split; vm_compute; reflexivity.
Qed.
