(* Properties C40, C62: virtual hosts. *)
From Verif Require Import M_Base M_Status M_KeyValue M_Request M_Response M_Suit M_Virtual S_KeyValue S_Static S_Virtual L_Virtual.

Definition ex_router (c : code) : router nat :=
  RouterOf (fun w _ => HRet (Some (set_code c new_response)) w) (fun w _ e => HRet (Some (set_code (he_code e) new_response)) w).
Definition ex_to (hosts : list bytes) : request :=
  set_headers (fold_left (fun s h => kv_add s (B "Host") h) hosts kv_new) new_request.
(* the code of a response that comes without any use of the connection *)
Definition code_of {W} (p : hprog W) : option code :=
  match p with HUpdate _ (HRet (Some f) _) => Some (f_code f) | _ => None end.

(* ------------------------------------------------------------------------------------ *)
(* C40: false: hosts are registered without "www." and default ports, but the Host header is
   compared as it is *)
Theorem C40_refuted : exists (x : router nat), forall w,
  code_of (v_request (v_build [VHost (B "www.example.com") x]) w (ex_to [B "www.example.com"])) = Some 421%N /\
  code_of (v_request (v_build [VHost (B "example.com:80") x]) w (ex_to [B "example.com:80"])) = Some 421%N.
Proof. exists (ex_router 200%N). intros w. split; vm_compute; reflexivity. Qed.
Print Assumptions C40_refuted.
(* C40: and so for every host with anything to remove *)
Theorem C40_shortened : forall W h (x : router W) w r, ~ Canonical h -> ~ AnyHost (norm_host h) -> hosts_of r = [h] ->
  Refused 421%N w (v_request (v_build [VHost h x]) w r).
Proof. exact shortened_host. Qed.
Print Assumptions C40_shortened.
(* C40: hosts are known without "www." and a default port, and under no other name *)
Theorem C40_known_as : forall h, Normal h (norm_host h) /\ forall n, Normal h n -> n = norm_host h.
Proof. intros h. split; [exact (norm_host_normal h)|]. intros n Hn. exact (normal_unique h n (norm_host h) Hn (norm_host_normal h)). Qed.
Print Assumptions C40_known_as.

(* C40: for all tables and requests with one Host header: the router of the first host that is
   known under this name, up to case *)
Theorem C40_host_partial : forall W (os : list (vop W)) w r h x, hosts_of r = [h] -> HostIs os h x -> GivenTo x w r (v_request (v_build os) w r).
Proof. exact to_host. Qed.
Print Assumptions C40_host_partial.
(* ... which is the registered router, if the host has nothing to remove and no earlier call
   took it.  Missing: other hosts (refuted). *)
Theorem C40_canonical_partial : forall W (os1 os2 : list (vop W)) w r h x, Canonical h -> ~ AnyHost h ->
  (forall h' x' n, In (VHost h' x') os1 -> Normal h' n -> ~ same_key n h) -> hosts_of r = [h] ->
  GivenTo x w r (v_request (v_build (os1 ++ VHost h x :: os2)) w r).
Proof. intros W os1 os2 w r h x Hc Ha Hn Hr. exact (to_host W _ w r h x Hr (canonical_host W os1 os2 h x Hc Ha Hn)). Qed.
Print Assumptions C40_canonical_partial.
(* C40: without a Host header, or with an unknown one: the default router *)
Theorem C40_default : forall W (os : list (vop W)) w r x, (hosts_of r = [] \/ exists h, hosts_of r = [h] /\ NoHost os h) -> DefaultIs os x ->
  GivenTo x w r (v_request (v_build os) w r).
Proof. exact to_default. Qed.
Print Assumptions C40_default.
(* C40: several Host headers: always 400; otherwise without a default router 400 and 421 *)
Theorem C40_refused : forall W (os : list (vop W)) w r, (forall a b l, hosts_of r = a :: b :: l -> Refused 400%N w (v_request (v_build os) w r)) /\
  (hosts_of r = [] -> NoDefault os -> Refused 400%N w (v_request (v_build os) w r)) /\
  (forall h, hosts_of r = [h] -> NoHost os h -> NoDefault os -> Refused 421%N w (v_request (v_build os) w r)).
Proof. exact refused. Qed.
Print Assumptions C40_refused.
Example C40_example :
  let v := v_build [VHost (B "www.A.com:443") (ex_router 201%N); VHost (B "a.com") (ex_router 202%N); VHost (B "a.com:8080") (ex_router 203%N);
                    VHost (B "0.0.0.0:80") (ex_router 204%N)] in
  map (fun hs => code_of (v_request v 0%nat (ex_to hs)))
    [[B "a.com"]; [B "a.COM:8080"]; [B "b.com"]; []; [B "a.com"; B "a.com"]; [B "www.a.com"]] =
  [Some 201%N; Some 203%N; Some 204%N; Some 204%N; Some 400%N; Some 204%N].
Proof. vm_compute. reflexivity. Qed.

(* ------------------------------------------------------------------------------------ *)
(* C62: false: an error that comes before the Host header is read has no host, and is answered
   with 400 *)
Theorem C62_refuted : exists (os : list (vop nat)) h x w e, os = [VHost h x] /\ Canonical h /\ e = ErrURITooLong /\
  (forall r, ro_error x w r e = HRet (Some (set_code 414%N new_response)) w) /\
  code_of (v_error (v_build os) w (ex_to []) e) = Some 400%N.
Proof.
  exists [VHost (B "a.com") (ex_router 200%N)], (B "a.com"), (ex_router 200%N), 0%nat, ErrURITooLong. split; [reflexivity|].
  split.
  { pose proof (norm_host_normal (B "a.com")) as H. assert (E : norm_host (B "a.com") = B "a.com") by (vm_compute; reflexivity). rewrite E in H.
    split; [|split].
    - intros (m & Em). vm_compute in Em. discriminate.
    - intros (a & Ea). do 4 (destruct a as [|? a]; [vm_compute in Ea; discriminate|]). apply (f_equal (@List.length byte)) in Ea. rewrite app_length in Ea. cbn in Ea. lia.
    - intros (a & Ea). do 4 (destruct a as [|? a]; [vm_compute in Ea; discriminate|]). apply (f_equal (@List.length byte)) in Ea. rewrite app_length in Ea. cbn in Ea. lia. }
  split; [reflexivity|]. split; [intros r; reflexivity|]. vm_compute. reflexivity.
Qed.
Print Assumptions C62_refuted.
(* C62: with exactly one Host header that is registered, the error goes to that router, as it
   is.  Missing: no or several Host headers (refuted), unknown hosts without a default
   router. *)
Theorem C62_host_partial : forall W (os : list (vop W)) w r e h x, hosts_of r = [h] -> HostIs os h x -> ErrorGivenTo x w r e (v_error (v_build os) w r e).
Proof. exact to_host_error. Qed.
Print Assumptions C62_host_partial.
Theorem C62_default_partial : forall W (os : list (vop W)) w r e x, (hosts_of r = [] \/ exists h, hosts_of r = [h] /\ NoHost os h) -> DefaultIs os x ->
  ErrorGivenTo x w r e (v_error (v_build os) w r e).
Proof. exact to_default_error. Qed.
Print Assumptions C62_default_partial.
