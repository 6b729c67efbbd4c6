(* Property C71: what happens to heads that exceed a limit. *)
From Verif Require Import M_Base M_Status M_Method M_Proto M_KeyValue M_Query M_Request M_Parser
  S_Head S_Parser S_Split L_Over.

(* C71: a well-formed head with a request line within the limit, but more or larger headers than
   configured, is refused with 431, however it arrives and whatever follows *)
Theorem C71_headers : forall cfg umax kmax vmax p h reads t,
  Ready umax kmax vmax p -> wf_head h -> line_fits (cfg_limits cfg umax kmax vmax) h ->
  (0 <= c_max_headers cfg)%Z -> (0 <= kmax)%Z -> (0 <= vmax)%Z ->
  ~ headers_fit (cfg_limits cfg umax kmax vmax) h -> concat reads = render_head h ++ t ->
  exists q e, fst (feed cfg p reads) = RErr q e /\ he_code e = 431%N.
Proof. exact over_headers. Qed.
Print Assumptions C71_headers.

(* C71: a target and version longer than the buffer are refused with 414, complete or not *)
Theorem C71_line : forall cfg umax kmax vmax p m l t reads,
  Ready umax kmax vmax p -> concat reads = m ++ SP :: l ++ t -> In m method_names -> (len m <= umax)%Z ->
  ~ In LF l -> (len l > umax)%Z ->
  exists q, fst (feed cfg p reads) = RErr q ErrURITooLong.
Proof. exact long_line. Qed.
Print Assumptions C71_line.

(* C71: so is anything without a space that is longer than the buffer: too long (400), or, if it
   arrives together with the space behind it, an unknown method (501) *)
Theorem C71_method : forall cfg umax kmax vmax p m t reads,
  Ready umax kmax vmax p -> (7 <= umax)%Z -> concat reads = m ++ t -> ~ In SP m -> (len m > umax)%Z ->
  exists q e, fst (feed cfg p reads) = RErr q e /\ (e = ErrTooLongRequestLine \/ e = ErrMethodNotImplemented).
Proof. exact long_method. Qed.
Print Assumptions C71_method.

(* the codes these errors stand for *)
Theorem C71_codes : he_code ErrURITooLong = 414%N /\ he_code ErrTooLongRequestLine = 400%N /\
  he_code ErrMethodNotImplemented = 501%N.
Proof. repeat split. Qed.
Print Assumptions C71_codes.

Definition C71_ex : head := Head GET (B "/") (B "/") None HTTP11 true
  [HLine (B "Host") 1 (B "a") true; HLine (B "Content-Length") 1 (B "3") false; HLine (B "X") 2 (B "long value") true] true.
Example C71_case : wf_head C71_ex /\ line_fits (cfg_limits (HCfg 10 100 5) 20 60 14) C71_ex /\
  ~ headers_fit (cfg_limits (HCfg 10 100 5) 20 60 14) C71_ex /\
  ~ headers_fit (cfg_limits (HCfg 10 100 5) 20 18 100) C71_ex /\ ~ headers_fit (cfg_limits (HCfg 2 100 5) 20 60 100) C71_ex /\
  ~ headers_fit (cfg_limits (HCfg 10 12 5) 20 60 100) C71_ex /\ headers_fit (cfg_limits (HCfg 3 13 5) 20 19 16) C71_ex /\
  exists q, fst (feed (HCfg 10 100 5) (new_parser 20 60 14 new_request) [render_head C71_ex]) = RErr q ErrHeaderFieldsTooLarge.
Proof.
  split; [|split; [|split; [|split; [|split; [|split; [|split]]]]]].
  - unfold wf_head. cbn [C71_ex h_method h_proto h_path h_decoded h_query h_lines]. split; [discriminate|]. split; [discriminate|]. split; [discriminate|].
    split; [intros [H|[]]; discriminate|]. split; [intros [H|[]]; discriminate|]. split; [apply PD_char; [discriminate|apply PD_nil]|]. split; [exact I|]. split; [|vm_compute; lia].
    apply Forall_cons; [|apply Forall_cons; [|apply Forall_cons; [|apply Forall_nil]]]; unfold wf_line; cbn [hl_key hl_value hl_crlf].
    + split; [vm_compute; intuition discriminate|]. split; [vm_compute; intuition discriminate|]. split; [vm_compute; intuition discriminate|]. change (is_content_length _) with false. cbn match.
      split; [vm_compute; intuition discriminate|]. split; [discriminate|discriminate].
    + split; [vm_compute; intuition discriminate|]. split; [vm_compute; intuition discriminate|]. split; [vm_compute; intuition discriminate|]. change (is_content_length _) with true. cbn match.
      split; [discriminate|]. split; [repeat constructor|reflexivity].
    + split; [vm_compute; intuition discriminate|]. split; [vm_compute; intuition discriminate|]. split; [vm_compute; intuition discriminate|]. change (is_content_length _) with false. cbn match.
      split; [vm_compute; intuition discriminate|]. split; [discriminate|discriminate].
  - vm_compute. discriminate.
  - intros (_ & _ & H & _). vm_compute in H. apply H. reflexivity.
  - intros (_ & H & _). vm_compute in H. apply H. reflexivity.
  - intros (H & _). vm_compute in H. apply H. reflexivity.
  - intros (_ & _ & _ & H). inversion H as [|? ? _ H2]; subst. inversion H2 as [|? ? _ H3]; subst. inversion H3 as [|? ? H4 _]; subst. vm_compute in H4. exact (H4 eq_refl eq_refl).
  - repeat split; try (vm_compute; discriminate). repeat constructor; vm_compute; intros; discriminate.
  - eexists. vm_compute. reflexivity.
Qed.
