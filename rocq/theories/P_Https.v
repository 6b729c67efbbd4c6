(* Properties C83, C84: the self-signed certificate of AutoHTTPS, and when it is used. *)
From Verif Require Import M_Base M_Path M_Request M_Address M_App M_Https S_Https L_Https L_Https2 P_Tables.

(* a Linux machine, HOME=/root, nothing else set *)
Definition ex_env (v : bytes) : bytes := if beqb v (B "HOME") then B "/root" else [].
Definition ex_cache : bytes := cache_dir OtherOS join_elems ex_env.
Definition ex_cert : bytes := cert_file OtherOS join_elems ex_env.
Definition ex_key : bytes := key_file OtherOS join_elems ex_env.
Definition ex_run := generate ex_cache ex_cert ex_key.
(* the directory is there and is empty *)
Definition ex_files : fs := fun q => if beqb q ex_cache then Some NDir else None.
Definition ex_c (k : N) (t : Z) : certificate := Cert k t (t + ten_years) [] 1.
(* what binding the sources of an application does with these files *)
Definition ex_bind (f : fs) (k : lkind) (addr : bytes) : option bytes :=
  match k with LTls c k => match load_pair f c k with Some _ => Some addr | None => None end | _ => Some addr end.
Example C83_files : ex_cert = B "/root/.cache/golang-autocert/localhost.crt" /\ ex_key = B "/root/.cache/golang-autocert/localhost.key".
Proof. vm_compute. split; reflexivity. Qed.

(* ------------------------------------------------------------------------------------ *)
(* C83: false: if the disk is full when the key is written, the call fails and TLS is disabled,
   but the next call takes the empty key file for a good one; from then on
   New(":80").AutoHTTPS(":443") can not be served at all *)
Theorem C83_refuted : exists g, Runs ex_files ex_run g (Some None) /\ Runs g ex_run g (Some (Some (ex_cert, ex_key))) /\
  load_pair g ex_cert ex_key = None /\
  bind (ex_bind ex_files) (auto_https None (B ":443") [] (app_new (B ":80"))) <> BindFailed [] /\
  bind (ex_bind g) (auto_https (Some (ex_cert, ex_key)) (B ":443") [] (app_new (B ":80"))) = BindFailed [B "0.0.0.0:80"].
Proof.
  exists (set_node (set_node (set_node ex_files ex_cert (NFile CEmpty)) ex_cert (NFile (CWhole (BCert (ex_c 7 0))))) ex_key (NFile CEmpty)).
  split; [|split; [|split; [vm_compute; reflexivity|split; [vm_compute; discriminate|vm_compute; reflexivity]]]].
  - unfold ex_run, generate, cert_exists, file_exists. apply R_stat. replace (ex_files ex_cert) with (@None node) by (vm_compute; reflexivity). cbn [is_file].
    unfold mkdir_if_not_exists. apply R_stat. replace (ex_files ex_cache) with (Some NDir) by (vm_compute; reflexivity). cbn [negb].
    apply R_key with (priv := 7%N). apply R_now with (t := 0%Z). apply R_make. cbn [negb]. apply R_create; [vm_compute; discriminate|]. cbn [negb].
    apply R_write. cbn [negb]. rewrite seteq. cbn [written]. apply R_create; [vm_compute; discriminate|]. cbn [negb]. apply R_make. cbn [negb]. apply R_write_err. cbn [negb]. apply R_ret.
  - unfold ex_run, generate, cert_exists, file_exists. apply R_stat. match goal with |- context [is_file ?n] => replace (is_file n) with true by (vm_compute; reflexivity) end. cbv beta iota.
    apply R_stat. match goal with |- context [is_file ?n] => replace (is_file n) with true by (vm_compute; reflexivity) end. cbv beta iota. apply R_ret.
Qed.
Print Assumptions C83_refuted.
(* C83: false: the certificate was removed, and the key can not be written: a new certificate is
   left beside the old key, and the next call returns the two *)
Theorem C83_mismatch_refuted : exists f g c, ~ HasFile f ex_cert /\ f ex_key = Some (NFile (CWhole (BKey 1))) /\
  Runs f ex_run g (Some None) /\ Runs g ex_run g (Some (Some (ex_cert, ex_key))) /\
  g ex_cert = Some (NFile (CWhole (BCert c))) /\ g ex_key = Some (NFile (CWhole (BKey 1))) /\ c_key c = 7%N /\ load_pair g ex_cert ex_key = None.
Proof.
  set (f := set_node ex_files ex_key (NFile (CWhole (BKey 1)))).
  exists f, (set_node (set_node f ex_cert (NFile CEmpty)) ex_cert (NFile (CWhole (BCert (ex_c 7 0))))), (ex_c 7 0).
  split; [intros [c H]; vm_compute in H; discriminate|]. split; [vm_compute; reflexivity|].
  split; [|split; [|repeat split; vm_compute; reflexivity]].
  - unfold ex_run, generate, cert_exists, file_exists. apply R_stat. replace (f ex_cert) with (@None node) by (vm_compute; reflexivity). cbn [is_file].
    unfold mkdir_if_not_exists. apply R_stat. replace (f ex_cache) with (Some NDir) by (vm_compute; reflexivity). cbn [negb].
    apply R_key with (priv := 7%N). apply R_now with (t := 0%Z). apply R_make. cbn [negb]. apply R_create; [vm_compute; discriminate|]. cbn [negb].
    apply R_write. cbn [negb]. rewrite seteq. cbn [written]. apply R_create_err. cbn [negb]. apply R_ret.
  - unfold ex_run, generate, cert_exists, file_exists. apply R_stat. match goal with |- context [is_file ?n] => replace (is_file n) with true by (vm_compute; reflexivity) end. cbv beta iota.
    apply R_stat. match goal with |- context [is_file ?n] => replace (is_file n) with true by (vm_compute; reflexivity) end. cbv beta iota. apply R_ret.
Qed.
Print Assumptions C83_mismatch_refuted.
(* C83: false: a pair is returned however long it has expired, and it never names a host: for
   every time after its end and every host it is not usable *)
Theorem C83_expired_refuted : exists f c, Pair f ex_cert ex_key c /\ Runs f ex_run f (Some (Some (ex_cert, ex_key))) /\
  (forall host now, (c_until c < now)%Z -> ~ Usable f ex_cert ex_key host now) /\ forall host now, ~ Usable f ex_cert ex_key host now.
Proof.
  exists (set_node (set_node ex_files ex_cert (NFile (CWhole (BCert (ex_c 7 0))))) ex_key (NFile (CWhole (BKey 7)))), (ex_c 7 0).
  split; [split; vm_compute; reflexivity|]. split; [|split].
  - unfold ex_run, generate, cert_exists, file_exists. apply R_stat. match goal with |- context [is_file ?n] => replace (is_file n) with true by (vm_compute; reflexivity) end. cbv beta iota.
    apply R_stat. match goal with |- context [is_file ?n] => replace (is_file n) with true by (vm_compute; reflexivity) end. cbv beta iota. apply R_ret.
  - intros host now H (c & [P _] & T & _). vm_compute in P. injection P as <-. cbn [c_until] in T. change (c_until (ex_c 7 0)) with 315360000%Z in H. lia.
  - intros host now (c & [P _] & _ & T). vm_compute in P. injection P as <-. exact T.
Qed.
Print Assumptions C83_expired_refuted.

(* C83: a call that returns the names either found the two files, and then nothing changed, or
   has left a certificate and its key, valid for ten years.  For all systems but Windows, all
   environments, files and executions.  Missing: that files found are good. *)
Theorem C83_success_partial : forall os wj getenv f g c k, os <> Windows -> let cert := cert_file os wj getenv in let key := key_file os wj getenv in
  Runs f (generate (cache_dir os wj getenv) cert key) g (Some (Some (c, k))) ->
  c = cert /\ k = key /\ ((g = f /\ HasFile f cert /\ HasFile f key) \/
    exists crt, Pair g cert key crt /\ c_until crt = (c_from crt + ten_years)%Z).
Proof. intros os wj getenv f g c k N cert key. destruct (files_apart os wj getenv N) as (D1 & D2 & D3). exact (success _ _ _ D1 D2 D3 f g c k). Qed.
Print Assumptions C83_success_partial.
(* C83: runs that all succeed leave a pair, if nothing broken was there before *)
Theorem C83_life_partial : forall os wj getenv f outs g, os <> Windows -> let cert := cert_file os wj getenv in let key := key_file os wj getenv in
  Healthy f cert key -> Life (cache_dir os wj getenv) cert key f outs g -> Forall (fun o => exists p, o = Some (Some p)) outs -> outs <> [] ->
  exists crt, Pair g cert key crt /\ load_pair g cert key = Some (crt, c_key crt).
Proof.
  intros os wj getenv f outs g N cert key H L F Ne. destruct (files_apart os wj getenv N) as (D1 & D2 & D3).
  destruct (healthy_life _ _ _ D1 D2 D3 outs f g H L F Ne) as [crt P]. exists crt. split; [exact P|]. apply pair_loads. exact P.
Qed.
Print Assumptions C83_life_partial.
(* C83: and if there was no key before, then the only broken state a failing or interrupted run
   can leave is a whole certificate beside a key file that is empty or cut *)
Theorem C83_ended_partial : forall os wj getenv f g o, os <> Windows -> let cert := cert_file os wj getenv in let key := key_file os wj getenv in
  ~ HasFile f key -> Runs f (generate (cache_dir os wj getenv) cert key) g o ->
  Healthy g cert key \/
  (o = None \/ o = Some None) /\ (exists c, g cert = Some (NFile (CWhole (BCert c)))) /\
    (g key = Some (NFile CEmpty) \/ exists b, g key = Some (NFile (CPart b))).
Proof. intros os wj getenv f g o N cert key. destruct (files_apart os wj getenv N) as (D1 & D2 & D3). exact (ended _ _ _ D1 D2 D3 f g o). Qed.
Print Assumptions C83_ended_partial.
(* C83: no run touches anything but the two files, directly in the cache directory, and missing
   directories on the way to them *)
Theorem C83_untouched : forall os wj getenv f g o q, os <> Windows -> let cache := cache_dir os wj getenv in
  Runs f (generate cache (cert_file os wj getenv) (key_file os wj getenv)) g o ->
  ~ InDir cache (B "localhost.crt") q -> ~ InDir cache (B "localhost.key") q ->
  g q = f q \/ (f q = None /\ g q = Some NDir /\ (on_the_way q cache \/ q = B "/")).
Proof.
  intros os wj getenv f g o q N cache R N1 N2. destruct (files_apart os wj getenv N) as (D1 & D2 & D3). destruct (files_in_cache os wj getenv N) as (I1 & I2 & _).
  apply (untouched _ _ _ D1 D2 D3 f g o q R); intros ->; contradiction.
Qed.
Print Assumptions C83_untouched.
(* C83: where the files are *)
Theorem C83_place : forall os wj getenv, os <> Windows ->
  InDir (cache_dir os wj getenv) (B "localhost.crt") (cert_file os wj getenv) /\ InDir (cache_dir os wj getenv) (B "localhost.key") (key_file os wj getenv) /\
  exists a, cache_dir os wj getenv = a ++ B "golang-autocert" /\ (a = [] \/ exists a', a = a' ++ B "/").
Proof. exact files_in_cache. Qed.
Print Assumptions C83_place.
(* C83: a run that does succeed, from nothing *)
Example C83_case : exists g, Runs (fun _ => None) ex_run g (Some (Some (ex_cert, ex_key))) /\ load_pair g ex_cert ex_key = Some (ex_c 7 0, 7%N).
Proof.
  set (d := fun q => if beqb q (B "/") || beqb q (B "/root") || beqb q (B "/root/.cache") || beqb q ex_cache then Some NDir else None).
  eexists (set_node (set_node (set_node (set_node d ex_cert (NFile CEmpty)) ex_cert (NFile (CWhole (BCert (ex_c 7 0))))) ex_key (NFile CEmpty)) ex_key (NFile (CWhole (BKey 7)))).
  split; [|vm_compute; reflexivity].
  unfold ex_run, generate, cert_exists, file_exists. apply R_stat. cbn [is_file].
  unfold mkdir_if_not_exists. apply R_stat. cbv beta iota. apply R_mkdir with (f' := d).
  { intros q. unfold d. destruct (beqb q (B "/")) eqn:E1; [right; apply L_Base.beqb_eq in E1; subst q; repeat split; right; reflexivity|].
    destruct (beqb q (B "/root")) eqn:E2; [right; apply L_Base.beqb_eq in E2; subst q; repeat split; left; right; exists (B ".cache/golang-autocert"); vm_compute; reflexivity|].
    destruct (beqb q (B "/root/.cache")) eqn:E3; [right; apply L_Base.beqb_eq in E3; subst q; repeat split; left; right; exists (B "golang-autocert"); vm_compute; reflexivity|].
    destruct (beqb q ex_cache) eqn:E4; [right; apply L_Base.beqb_eq in E4; subst q; repeat split; left; left; reflexivity|left; reflexivity]. }
  { vm_compute. reflexivity. }
  cbn [negb]. apply R_key with (priv := 7%N). apply R_now with (t := 0%Z). apply R_make. cbn [negb]. apply R_create; [vm_compute; discriminate|]. cbn [negb].
  apply R_write. cbn [negb]. rewrite seteq. cbn [written]. apply R_create; [vm_compute; discriminate|]. cbn [negb]. apply R_make. cbn [negb]. apply R_write. rewrite seteq. cbn [written negb]. apply R_ret.
Qed.

(* ------------------------------------------------------------------------------------ *)
(* C84: an address counts as local exactly if its host is missing, is localhost in any letter
   case, or is an IPv4 address in its usual form *)
Theorem C84_local : forall addr host, HostOf addr host -> is_local (norm_addr addr) = true <-> host = [] \/ LocalName host \/ DottedQuad host.
Proof. exact local_iff. Qed.
Print Assumptions C84_local.
(* C84: AutoHTTPS adds at most one source and never one without TLS; none exactly if the address
   is local and no certificate could be made *)
Theorem C84_sources : forall ss addr domains srcs, let srcs' := auto_https ss addr domains srcs in
  (srcs' = srcs /\ is_local (norm_addr addr) = true /\ ss = None) \/
  exists k, srcs' = srcs ++ [Source (norm_addr addr) k (Some (Http enc_tls))] /\
    (is_local (norm_addr addr) = true /\ (exists c key, ss = Some (c, key) /\ k = LTls c key) \/ is_local (norm_addr addr) = false /\ k = LAuto domains).
Proof.
  intros ss addr domains srcs srcs'. unfold srcs', auto_https, app_auto_https, app_https, app_listen. assert (Id : norm_addr (norm_addr addr) = norm_addr addr) by apply P_Tables.C54_idempotent.
  destruct (is_local (norm_addr addr)); [destruct ss as [[c k]|]; [|left; auto]|]; right; rewrite Id; eauto 10.
Qed.
Print Assumptions C84_sources.
(* C84: false: AutoHTTPS(":443", "example.com"): the domain is forgotten, whatever the
   certificate, which is the self-signed one *)
Theorem C84_domains_refuted : exists addr d, forall ss, ~ Certified (auto_https ss addr [d] []) d.
Proof.
  exists (B ":443"), (B "example.com"). intros ss (s & Hs & ds & E & _). destruct (C84_sources ss (B ":443") [B "example.com"] []) as [(K & _)|(k & K & [(_ & c & key & _ & Ek)|(K2 & _)])].
  - rewrite K in Hs. destruct Hs.
  - rewrite K in Hs. destruct Hs as [<-|[]]. cbn in E. congruence.
  - vm_compute in K2. discriminate.
Qed.
Print Assumptions C84_domains_refuted.
(* C84: all domains are kept exactly if the address is not local *)
Theorem C84_domains_partial : forall ss addr domains, domains <> [] ->
  ((forall d, In d domains -> Certified (auto_https ss addr domains []) d) <-> is_local (norm_addr addr) = false).
Proof.
  intros ss addr domains N. destruct (C84_sources ss addr domains []) as [(K & L & _)|(k & K & [(L & c & key & _ & Ek)|(L & Ek)])]; rewrite K, L; split; try discriminate; try reflexivity.
  - intros H. destruct domains as [|d ds]; [contradiction|]. destruct (H d (or_introl eq_refl)) as (s & [] & _).
  - intros H. destruct domains as [|d ds]; [contradiction|]. destruct (H d (or_introl eq_refl)) as (s & Hs & ds' & E & _). destruct Hs as [<-|[]]. cbn in E. congruence.
  - intros _ d Hd. eexists. split; [left; reflexivity|]. exists domains. split; [exact Ek|exact Hd].
Qed.
Print Assumptions C84_domains_partial.
(* C84: false: IPv6 addresses, even ::1, are not taken for IP addresses; a certificate is asked
   for from the authority instead *)
Theorem C84_ipv6_refuted : exists addr, addr = B "[::1]:443" /\ forall ss, auto_https ss addr [] [] = [Source addr (LAuto []) (Some (Http enc_tls))].
Proof. eexists. split; [reflexivity|]. intros ss. vm_compute. reflexivity. Qed.
Print Assumptions C84_ipv6_refuted.
Example C84_case : DottedQuad (B "127.0.0.1") /\ is_local (norm_addr (B "127.0.0.1:80")) = true /\ is_local (B "LocalHost:80") = true /\
  is_local (B "127.0.0.01:80") = false /\ is_local (B "256.0.0.1:80") = false /\ is_local (B "example.com:80") = false.
Proof.
  split; [exists (B "127"), (B "0"), (B "0"), (B "1"); repeat split; [exists 127%N|exists 0%N|exists 0%N|exists 1%N]; split; vm_compute; reflexivity|]. repeat split; vm_compute; reflexivity.
Qed.
