(* C102: the private key is kept from other users. *)
From Verif Require Import M_Base M_Https M_Started M_Modes S_Https S_Modes L_Base L_Https L_Https2 L_Started L_Modes P_Started.
From Coq Require Import Lia List.
Import ListNotations.

(* C102: the cache directory is there, open to everybody (0755), and the umask is the usual 022:
   the private key is written with permissions 0644, and every user of the machine can read it *)
Theorem C102_refuted : exists f m n g m', f the_cache = Some NDir /\ m the_cache = 493%N /\
  moded 18 7 0 n (generate the_cache the_cert the_key) f m = (g, m', FRet (Some (the_cert, the_key))) /\
  g the_key = Some (NFile (CWhole (BKey 7))) /\ m' the_key = 420%N /\ Reads Others g m' the_cache the_key /\ Reads Group g m' the_cache the_key.
Proof.
  exists (fun q => if beqb q the_cache then Some NDir else None), (fun _ => 493%N), 10. do 2 eexists.
  split; [vm_compute; reflexivity|]. split; [reflexivity|]. split; [reflexivity|].
  repeat split; try (vm_compute; reflexivity); eexists; vm_compute; reflexivity.
Qed.
Print Assumptions C102_refuted.

(* C102: if there is no cache directory yet then nobody else can read the key, at any moment,
   whatever the umask.  For all systems but Windows.  Missing: a directory that is there. *)
Theorem C102_partial : forall os wj getenv umask priv now n f m g m' p', os <> Windows ->
  let cache := cache_dir os wj getenv in let cert := cert_file os wj getenv in let key := key_file os wj getenv in
  moded umask priv now n (generate cache cert key) f m = (g, m', p') -> f cache = None ->
  forall w, ~ Reads w g m' cache key /\ ~ Reads w g m' cache cert.
Proof.
  intros os wj getenv umask priv now n f m g m' p' N cache cert key H E w.
  destruct (files_apart os wj getenv N) as (D1 & D2 & _). destruct (D2 (cache_dir os wj getenv) (or_introl eq_refl)) as [D3 D4].
  destruct (kept_run cache cert key D1 D3 D4 _ _ _ _ _ _ _ _ _ H) as (_ & _ & K). unfold Kept in K. rewrite E in K.
  split; intros (G & S & _); (destruct K as [K|K]; [congruence|]); rewrite K, dir_private in S; discriminate.
Qed.
Print Assumptions C102_partial.

(* C102: exactly when others can read it: the directory was there before and lets them through,
   and either the file was there before and let them read, or it was not and the umask does not
   take that away *)
Theorem C102_exact : forall os wj getenv umask priv now n f m g m' p', os <> Windows ->
  let cache := cache_dir os wj getenv in let cert := cert_file os wj getenv in let key := key_file os wj getenv in
  moded umask priv now n (generate cache cert key) f m = (g, m', p') -> g cache = Some NDir -> HasFile g key ->
  forall w, Reads w g m' cache key <->
    f cache <> None /\ may_search w (m cache) = true /\ (f key = None /\ may_read w umask = false \/ f key <> None /\ may_read w (m key) = true).
Proof.
  intros os wj getenv umask priv now n f m g m' p' N cache cert key H G HF w.
  destruct (files_apart os wj getenv N) as (D1 & D2 & _). destruct (D2 (cache_dir os wj getenv) (or_introl eq_refl)) as [D3 D4].
  destruct (kept_run cache cert key D1 D3 D4 _ _ _ _ _ _ _ _ _ H) as (K1 & _ & K). unfold Kept in K, K1.
  destruct HF as [c HF]. fold key in HF. unfold Reads. rewrite G, HF.
  destruct (f cache) as [d|].
  - destruct K as [_ ->]. destruct (f key) as [k|].
    + destruct K1 as [_ ->]. split.
      * intros (_ & S & _ & R). split; [discriminate|]. split; [exact S|]. right. split; [discriminate|exact R].
      * intros (_ & S & [[C _]|[_ R]]); [discriminate|]. repeat split; auto. eexists; reflexivity.
    + destruct K1 as [K1|K1]; [congruence|]. rewrite K1, file_public. split.
      * intros (_ & S & _ & R). split; [discriminate|]. split; [exact S|]. left. split; [reflexivity|]. destruct (may_read w umask); [discriminate|reflexivity].
      * intros (_ & S & [[_ R]|[C _]]); [|contradiction]. rewrite R. repeat split; auto. eexists; reflexivity.
  - destruct K as [K|K]; [congruence|]. rewrite K, dir_private. split; [intros (_ & C & _); discriminate|intros (C & _); contradiction].
Qed.
Print Assumptions C102_exact.

(* C102: a start from nothing makes the directory 0700 and the key 0644, and the directory keeps
   the others out; with a umask of 077 an open directory does no harm *)
Example C102_case :
  (let '(g, m, p) := moded 18 7 0 11 (generate the_cache the_cert the_key) (fun _ => None) (fun _ => 0%N) in
   p = FRet (Some (the_cert, the_key)) /\ m the_cache = 448%N /\ m the_key = 420%N /\ may_search Others (m the_cache) = false) /\
  let '(g, m, p) := moded 63 7 0 10 (generate the_cache the_cert the_key) (fun q => if beqb q the_cache then Some NDir else None) (fun _ => 493%N) in
  p = FRet (Some (the_cert, the_key)) /\ m the_cache = 493%N /\ m the_key = 384%N /\ may_read Others (m the_key) = false.
Proof. vm_compute. repeat split. Qed.
