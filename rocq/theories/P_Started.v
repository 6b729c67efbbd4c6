(* C101: applications started at once end up with a certificate and its key. *)
From Verif Require Import M_Base M_Https M_Started S_Https S_Started L_Base L_Https L_Https2 L_Started.
From Coq Require Import Lia List.
Import ListNotations.

Definition two_keys (i : nat) : N := match i with O => 7%N | _ => 8%N end.
Definition no_clock (_ : nat) : Z := 0%Z.
Definition home (v : bytes) : bytes := if beqb v (B "HOME") then B "/root" else [].
Definition no_win (es : list bytes) : bytes := [].
Definition the_cache : bytes := cache_dir OtherOS no_win home.
Definition the_cert : bytes := cert_file OtherOS no_win home.
Definition the_key : bytes := key_file OtherOS no_win home.

(* C101: two applications are started on a machine that has no certificate yet.  The second is
   faster between the first one's writing of the certificate and of the key: both report success,
   the certificate on the disk is the second one's and the key the first one's, and neither they
   nor any later start can load the pair: every later start finds the files and takes them *)
Theorem C101_refuted : exists sched,
  let s := turns two_keys no_clock sched (started the_cache the_cert the_key 2 (fun _ => None)) in
  AllDone s (Some (the_cert, the_key)) /\ load_pair (pr_files s) the_cert the_key = None /\
  forall keys clock n later, let t := turns keys clock later (started the_cache the_cert the_key n (pr_files s)) in
    load_pair (pr_files t) the_cert the_key = None /\ forall i o, Done t i o -> o = Some (the_cert, the_key).
Proof.
  exists (repeat 0 8 ++ repeat 1 11 ++ repeat 0 3). set (s := turns _ _ _ _).
  assert (C : pr_files s the_cert = Some (NFile (CWhole (BCert (Cert 8 0 ten_years [] 1))))) by (vm_compute; reflexivity).
  assert (K : pr_files s the_key = Some (NFile (CWhole (BKey 7)))) by (vm_compute; reflexivity).
  assert (L : load_pair (pr_files s) the_cert the_key = None) by (unfold load_pair; rewrite C, K; reflexivity).
  split; [|split; [exact L|]].
  - unfold AllDone. vm_compute. repeat constructor.
  - intros keys clock n later t. destruct (many_found the_cache the_cert the_key keys clock n later (pr_files s)) as (F & _ & O); [eexists; exact C|eexists; exact K|].
    fold t in F, O. rewrite F. split; [exact L|exact O].
Qed.
Print Assumptions C101_refuted.

(* C101: an application that is started while another one is between creating the key's file and
   writing it takes the two files for a pair, and cannot load them: the key's file is empty *)
Theorem C101_early_refuted : exists sched,
  let s := turns two_keys no_clock sched (started the_cache the_cert the_key 2 (fun _ => None)) in
  Done s 1 (Some (the_cert, the_key)) /\ pr_files s the_key = Some (NFile CEmpty) /\ load_pair (pr_files s) the_cert the_key = None.
Proof. exists (repeat 0 9 ++ repeat 1 2). vm_compute. repeat split. Qed.
Print Assumptions C101_early_refuted.

(* C101: for any number of applications started at once, any order of their steps, and all keys
   and clocks, on all systems but Windows: if none is between another one's creating and writing
   a file, then all of them succeed, and what is left can be loaded exactly if the certificate and
   the key were written last by the same one (or by two that drew the same key).  Missing: files
   written by two at a time, and a system that fails. *)
Theorem C101_partial : forall os wj getenv keys clock n sched f, os <> Windows ->
  let cache := cache_dir os wj getenv in let cert := cert_file os wj getenv in let key := key_file os wj getenv in
  (forall c, f cache <> Some (NFile c)) -> f cert <> Some NDir -> f key <> Some NDir -> ~ (HasFile f cert /\ HasFile f key) -> n > 0 ->
  let s := turns keys clock sched (started cache cert key n f) in
  (forall p, In p (pr_progs s) -> exists o, p = FRet o) -> OneByOne (pr_log s) cert -> OneByOne (pr_log s) key ->
  AllDone s (Some (cert, key)) /\
  exists i j, LastToWrite (pr_log s) cert i /\ LastToWrite (pr_log s) key j /\ (load_pair (pr_files s) cert key <> None <-> keys i = keys j).
Proof.
  intros os wj getenv keys clock n sched f N cache cert key. destruct (files_apart os wj getenv N) as (D1 & D2 & _). destruct (D2 (cache_dir os wj getenv) (or_introl eq_refl)) as [D3 D4].
  exact (many_exact cache cert key D1 D3 D4 keys clock n sched f).
Qed.
Print Assumptions C101_partial.

(* C101: if the two files are there, then however many are started, and in whatever order they
   take their steps, no file changes and those that are done have taken the two files *)
Theorem C101_found : forall os wj getenv keys clock n sched f,
  let cache := cache_dir os wj getenv in let cert := cert_file os wj getenv in let key := key_file os wj getenv in
  HasFile f cert -> HasFile f key -> let s := turns keys clock sched (started cache cert key n f) in
  pr_files s = f /\ pr_log s = [] /\ forall i o, Done s i o -> o = Some (cert, key).
Proof. intros. apply many_found; assumption. Qed.
Print Assumptions C101_found.

(* C101: a single application in this model does what it does in that of C83 *)
Theorem C101_alone : forall os wj getenv priv now n f g o,
  let p := generate (cache_dir os wj getenv) (cert_file os wj getenv) (key_file os wj getenv) in
  alone priv now n p f = (g, FRet o) -> Runs f p g (Some o).
Proof. intros os wj getenv priv now n f g o p. apply alone_runs. Qed.
Print Assumptions C101_alone.

(* C101: two applications, one after the other and then one beside the other without harm *)
Example C101_case :
  let s := turns two_keys no_clock (repeat 0 11 ++ repeat 1 2) (started the_cache the_cert the_key 2 (fun _ => None)) in
  AllDone s (Some (the_cert, the_key)) /\ load_pair (pr_files s) the_cert the_key = Some (Cert 7 0 ten_years [] 1, 7%N) /\
  let t := turns two_keys no_clock (repeat 0 8 ++ repeat 1 8 ++ repeat 0 3 ++ repeat 1 3) (started the_cache the_cert the_key 2 (fun _ => None)) in
  AllDone t (Some (the_cert, the_key)) /\ OneByOne (pr_log t) the_cert /\ OneByOne (pr_log t) the_key /\
  load_pair (pr_files t) the_cert the_key = Some (Cert 8 0 ten_years [] 1, 8%N).
Proof. vm_compute. repeat (split || constructor). Qed.
