(* The parser lemmas in the form the properties state them. *)
From Verif Require Import M_Base L_Base M_Status M_Method M_Proto M_Uri M_KeyValue M_Query M_Request
  M_Parser S_Head S_Parser S_Limits S_Tokens L_Uri L_Parser L_Head L_Safe L_Tokens.

Lemma segmentation_means : forall cfg umax kmax vmax p h reads tail,
  Ready umax kmax vmax p -> wf_head h -> fits (cfg_limits cfg umax kmax vmax) h ->
  concat reads = render_head h ++ tail ->
  exists p' extra rs,
    feed cfg p reads = (RDone p' extra, rs) /\ extra ++ concat rs = tail /\
    Ready umax kmax vmax p' /\ Means (p_req p) h (p_req p').
Proof.
  intros cfg umax kmax vmax p h reads tail Hr Hwf Hfit Hc.
  destruct (segmentation cfg umax kmax vmax p h reads tail Hr Hwf Hfit Hc)
    as (p' & extra & rs & H1 & H2 & H3 & H4 & _).
  exists p', extra, rs. tauto.
Qed.

Lemma segmentation_unique : forall cfg umax kmax vmax p h reads1 reads2 tail1 tail2,
  Ready umax kmax vmax p -> wf_head h -> fits (cfg_limits cfg umax kmax vmax) h ->
  concat reads1 = render_head h ++ tail1 -> concat reads2 = render_head h ++ tail2 ->
  exists p1 p2 e1 e2 rs1 rs2,
    feed cfg p reads1 = (RDone p1 e1, rs1) /\ feed cfg p reads2 = (RDone p2 e2, rs2) /\
    p_req p1 = p_req p2.
Proof.
  intros cfg umax kmax vmax p h reads1 reads2 tail1 tail2 Hr Hwf Hfit Hc1 Hc2.
  destruct (segmentation cfg umax kmax vmax p h reads1 tail1 Hr Hwf Hfit Hc1)
    as (p1 & e1 & rs1 & H1 & _ & _ & _ & H1').
  destruct (segmentation cfg umax kmax vmax p h reads2 tail2 Hr Hwf Hfit Hc2)
    as (p2 & e2 & rs2 & H2 & _ & _ & _ & H2').
  exists p1, p2, e1, e2, rs1, rs2. split; [exact H1|]. split; [exact H2|]. congruence.
Qed.

Lemma new_parser_ready : forall umax kmax vmax r, Ready umax kmax vmax (new_parser umax kmax vmax r).
Proof. intros. repeat split. Qed.

Lemma feed_returns : forall cfg umax kmax vmax p reads, Ready umax kmax vmax p ->
  (forall a c b, concat reads = a ++ c :: LF :: b -> c <> SP /\ c <> x3a) ->
  exists p', parser_after (fst (feed cfg p reads)) = Some p'.
Proof.
  intros cfg umax kmax vmax p reads Hr H.
  pose proof (feed_nopanic cfg umax kmax vmax p reads Hr H) as H1.
  pose proof (feed_not_stuck cfg reads p) as H2.
  destruct (fst (feed cfg p reads)); try contradiction; eexists; reflexivity.
Qed.

Lemma feed_limits : forall cfg umax kmax vmax p reads p',
  (0 <= c_max_headers cfg)%Z -> (0 <= c_max_enc_tokens cfg)%Z ->
  (0 <= umax)%Z -> (0 <= kmax)%Z -> (0 <= vmax)%Z ->
  Ready umax kmax vmax p -> kv_pairs (r_headers (p_req p)) = [] ->
  Within (cfg_limits cfg umax kmax vmax) (p_req p) ->
  parser_after (fst (feed cfg p reads)) = Some p' ->
  (held (p_start p') <= umax)%Z /\ (held (p_key p') <= kmax)%Z /\ (held (p_val p') <= vmax)%Z /\
  Within (cfg_limits cfg umax kmax vmax) (p_req p').
Proof.
  intros cfg umax kmax vmax p reads p' H1 H2 Hu Hk Hv Hr Hh Hw Hp.
  destruct (feed_bounds cfg umax kmax vmax H1 H2 p reads Hu Hk Hv Hr Hh Hw p' Hp)
    as ((B1 & B2 & B3 & B4 & B5 & B6) & W).
  unfold Bounded in *. rewrite B2 in B1. rewrite B4 in B3. rewrite B6 in B5. tauto.
Qed.

Lemma within_new : forall cfg umax kmax vmax, (0 <= c_max_headers cfg)%Z -> (0 <= c_max_enc_tokens cfg)%Z ->
  (0 <= umax)%Z -> (0 <= kmax)%Z -> (0 <= vmax)%Z ->
  kv_pairs (r_headers new_request) = [] /\ Within (cfg_limits cfg umax kmax vmax) new_request.
Proof. intros. split; [reflexivity|]. constructor; simpl; try (unfold len; simpl; lia). constructor. Qed.

Lemma within_clear : forall cfg umax kmax vmax r, (0 <= c_max_headers cfg)%Z -> (0 <= c_max_enc_tokens cfg)%Z ->
  (0 <= umax)%Z -> (0 <= kmax)%Z -> (0 <= vmax)%Z ->
  Within (cfg_limits cfg umax kmax vmax) r ->
  kv_pairs (r_headers (request_clear r)) = [] /\ Within (cfg_limits cfg umax kmax vmax) (request_clear r).
Proof.
  intros cfg umax kmax vmax r H1 H2 Hu Hk Hv [W1 W2 W3 W4 W5 W6 W7 W8]. split; [reflexivity|].
  constructor; simpl; try assumption; try lia.
  - rewrite (proj1 (query_set_raw _ _)), len_nil. exact Hu.
  - constructor.
Qed.

Lemma last_value_mid : forall name ls1 l ls2, named name l = true ->
  Forall (fun x => named name x = false) ls2 -> last_value name (ls1 ++ l :: ls2) = Some (hl_value l).
Proof.
  intros name ls1 l ls2 Hl H2.
  assert (H : last_value name ls2 = None).
  { induction H2 as [|x ls Hx H2 IH]; [reflexivity|]. cbn [last_value]. rewrite IH, Hx. reflexivity. }
  induction ls1 as [|x ls1 IH]; cbn [app last_value].
  - rewrite H, Hl. reflexivity.
  - rewrite IH. reflexivity.
Qed.

Lemma content_length_value : forall cfg umax kmax vmax p h l reads tail,
  Ready umax kmax vmax p -> wf_head h -> fits (cfg_limits cfg umax kmax vmax) h ->
  In l (h_lines h) -> is_content_length l = true ->
  concat reads = render_head h ++ tail ->
  exists p' extra rs, feed cfg p reads = (RDone p' extra, rs) /\
    r_content_length (p_req p') = dec_value (hl_value l).
Proof.
  intros cfg umax kmax vmax p h l reads tail Hr Hwf Hfit Hin Hcl Hc.
  destruct (segmentation cfg umax kmax vmax p h reads tail Hr Hwf Hfit Hc)
    as (p' & extra & rs & H1 & _ & _ & H4 & _).
  exists p', extra, rs. split; [exact H1|]. rewrite (mn_clen _ _ _ H4).
  apply in_split in Hin. destruct Hin as (ls1 & ls2 & Hls).
  destruct Hwf as (_ & _ & _ & _ & _ & _ & _ & _ & Hn). rewrite Hls in *.
  rewrite filter_app, app_length in Hn. cbn [filter] in Hn. rewrite Hcl in Hn. cbn [List.length] in Hn.
  rewrite last_value_mid with (l := l); [reflexivity|exact Hcl|].
  apply Forall_forall. intros x Hx. destruct (named (B "content-length") x) eqn:E; [|reflexivity].
  assert (Hf : In x (filter is_content_length ls2)) by (apply filter_In; split; assumption).
  destruct (filter is_content_length ls2); [contradiction|]. simpl in Hn. lia.
Qed.

Lemma names_clean : forall cfg umax kmax vmax p h reads tail,
  Ready umax kmax vmax p -> kv_pairs (r_headers (p_req p)) = [] ->
  wf_head h -> fits (cfg_limits cfg umax kmax vmax) h ->
  concat reads = render_head h ++ tail ->
  exists p' extra rs, feed cfg p reads = (RDone p' extra, rs) /\
    forall k v, In (k, v) (kv_pairs (r_headers (p_req p'))) ->
      ~ In CR k /\ ~ In LF k /\ exists l, In l (h_lines h) /\ hl_key l = k /\ hl_value l = v.
Proof.
  intros cfg umax kmax vmax p h reads tail Hr Hh Hwf Hfit Hc.
  destruct (segmentation cfg umax kmax vmax p h reads tail Hr Hwf Hfit Hc)
    as (p' & extra & rs & H1 & _ & _ & H4 & _).
  exists p', extra, rs. split; [exact H1|]. intros k v Hin.
  rewrite (mn_headers _ _ _ H4), Hh in Hin. cbn [app] in Hin. unfold field_pairs in Hin.
  apply in_map_iff in Hin. destruct Hin as (l & Heq & Hl). injection Heq as <- <-.
  apply filter_In in Hl. destruct Hl as [Hl _].
  destruct Hwf as (_ & _ & _ & _ & _ & _ & _ & Hw & _). rewrite Forall_forall in Hw.
  destruct (Hw l Hl) as (_ & W1 & W2 & _). split; [exact W1|]. split; [exact W2|].
  exists l. repeat split; exact Hl.
Qed.

Lemma existsb_map' : forall (A : Type) (f : A -> bytes) (g : bytes -> bool) l,
  existsb g (map f l) = existsb (fun x => g (f x)) l.
Proof. induction l as [|x l IH]; [reflexivity|]. simpl. rewrite IH. reflexivity. Qed.

Lemma transfer_encoding_value : forall cfg umax kmax vmax p h reads tail ls1 l ls2 es,
  Ready umax kmax vmax p -> wf_head h -> fits (cfg_limits cfg umax kmax vmax) h ->
  h_lines h = ls1 ++ l :: ls2 -> named (B "transfer-encoding") l = true ->
  Forall (fun x => named (B "transfer-encoding") x = false) ls2 ->
  es <> [] -> Forall pad_ok es -> hl_value l = comma_join (map pad_text es) ->
  concat reads = render_head h ++ tail ->
  exists p' extra rs, feed cfg p reads = (RDone p' extra, rs) /\
    enc_transfer (r_encoding (p_req p')) = map pad_token es /\
    enc_chunked (r_encoding (p_req p')) = existsb (fun e => equal_fold (pad_token e) (B "chunked")) es.
Proof.
  intros cfg umax kmax vmax p h reads tail ls1 l ls2 es Hr Hwf Hfit Hls Hl H2 Hne Hes Hv Hc.
  destruct (segmentation cfg umax kmax vmax p h reads tail Hr Hwf Hfit Hc)
    as (p' & extra & rs & H1 & _ & _ & H4 & _).
  exists p', extra, rs. split; [exact H1|].
  rewrite (mn_transfer _ _ _ H4), (mn_chunked _ _ _ H4), Hls.
  rewrite last_value_mid by assumption. cbn [option_map or_default]. unfold mentions_chunked.
  rewrite Hv, list_elements_join by assumption. split; [reflexivity|]. apply existsb_map'.
Qed.

Lemma ex_transfer_list : exists es, es <> [] /\ Forall pad_ok es /\
  B "gzip , Chunked" = comma_join (map pad_text es) /\
  existsb (fun e => equal_fold (pad_token e) (B "chunked")) es = true.
Proof.
  exists [([], B "gzip", [SP]); ([SP], B "Chunked", [])].
  split; [discriminate|]. split; [|split; reflexivity].
  repeat constructor; try (eexists _, _; repeat split; reflexivity);
    try (intro H; vm_compute in H; intuition discriminate).
Qed.

Definition ex_head_ : head :=
  Head POST (B "/a%20b") (B "/a b") (Some (B "q=1&r=%41")) HTTP11 true
    [HLine (B "Host") 1 (B "localhost:8080") true;
     HLine (B "CONTENT-length") 0 (B "13") false;
     HLine (B "x-empty") 0 [] true;
     HLine (B "Connection") 3 (B "close ") true;
     HLine (B "Transfer-Encoding") 1 (B "gzip , Chunked") true]
    true.
Lemma ex_head_ok : wf_head ex_head_ /\ fits (cfg_limits (HCfg 50 8192 15) 100 60 60) ex_head_ /\
  render_head ex_head_ = B "POST /a%20b?q=1&r=%41 HTTP/1.1" ++ CRLF ++
    B "Host: localhost:8080" ++ CRLF ++ B "CONTENT-length:13" ++ [LF] ++ B "x-empty:" ++ CRLF ++
    B "Connection:   close " ++ CRLF ++ B "Transfer-Encoding: gzip , Chunked" ++ CRLF ++ CRLF.
Proof.
  assert (NI : forall (c : byte) l, existsb (Byte.eqb c) l = false -> ~ In c l).
  { intros c l H Hi. assert (E : existsb (Byte.eqb c) l = true).
    { apply existsb_exists. exists c. split; [exact Hi|apply beq_refl]. }
    rewrite E in H. discriminate. }
  split; [|split; [|reflexivity]].
  - unfold wf_head, ex_head_. cbn [h_method h_proto h_path h_decoded h_query h_lines].
    repeat split; try discriminate; try (apply NI; reflexivity).
    + vm_compute. repeat (apply PD_char; [discriminate|]).
      eapply (PD_esc _ _ 2%N 0%N); [reflexivity|reflexivity|].
      apply PD_char; [discriminate|]. apply PD_nil.
    + repeat (apply Forall_cons || apply Forall_nil); unfold wf_line; cbn [hl_key hl_value hl_crlf];
        (split; [apply NI; reflexivity|]); (split; [apply NI; reflexivity|]); (split; [apply NI; reflexivity|]).
      * change (is_content_length (HLine (B "Host") 1 (B "localhost:8080") true)) with false. cbv iota.
        split; [apply NI; reflexivity|]. split; [discriminate|]. discriminate.
      * match goal with |- context [is_content_length ?l] => change (is_content_length l) with true end. cbv iota.
        split; [discriminate|]. split; [repeat constructor|]. reflexivity.
      * match goal with |- context [is_content_length ?l] => change (is_content_length l) with false end. cbv iota.
        split; [apply NI; reflexivity|]. split; [discriminate|]. discriminate.
      * match goal with |- context [is_content_length ?l] => change (is_content_length l) with false end. cbv iota.
        split; [apply NI; reflexivity|]. split; [discriminate|]. discriminate.
      * match goal with |- context [is_content_length ?l] => change (is_content_length l) with false end. cbv iota.
        split; [apply NI; reflexivity|]. split; [discriminate|]. discriminate.
    + vm_compute. lia.
  - unfold fits. repeat split; try (vm_compute; discriminate).
    + repeat (apply Forall_cons || apply Forall_nil); intros _; vm_compute; discriminate.
    + repeat (apply Forall_cons || apply Forall_nil); intros _; vm_compute; discriminate.
Qed.
