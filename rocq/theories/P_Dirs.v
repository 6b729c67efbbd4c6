(* Property C83: where the certificate is kept. *)
From Verif Require Import M_Base M_Path M_Https S_Dirs L_Dirs P_Https.

(* C83: the directory of the certificate, for every operating system and every environment; there is
   always one, and only one *)
Theorem C83_dir_exact : forall os wj getenv d, cache_dir os wj getenv = d <-> exists es, CacheIn getenv os es /\ d = joined os wj es.
Proof.
  intros os wj getenv d.
  assert (T : exists es, CacheIn getenv os es /\ cache_dir os wj getenv = joined os wj es).
  { destruct os.
    - eexists. split; [apply Ca_darwin, home_is|reflexivity].
    - unfold cache_dir. cbn [first_set].
      destruct (getenv (B "APPDATA")) eqn:E1; [|eexists; split; [apply (Ca_windows _ [] (B "APPDATA") _ eq_refl); [constructor|unfold unset; rewrite E1; discriminate]|rewrite E1; reflexivity]].
      destruct (getenv (B "CSIDL_APPDATA")) eqn:E2; [|eexists; split; [apply (Ca_windows _ [B "APPDATA"] (B "CSIDL_APPDATA") _ eq_refl); [repeat constructor; assumption|unfold unset; rewrite E2; discriminate]|rewrite E2; reflexivity]].
      destruct (getenv (B "TEMP")) eqn:E3; [|eexists; split; [apply (Ca_windows _ [B "APPDATA"; B "CSIDL_APPDATA"] (B "TEMP") _ eq_refl); [repeat constructor; assumption|unfold unset; rewrite E3; discriminate]|rewrite E3; reflexivity]].
      destruct (getenv (B "TMP")) eqn:E4; [|eexists; split; [apply (Ca_windows _ [B "APPDATA"; B "CSIDL_APPDATA"; B "TEMP"] (B "TMP") _ eq_refl); [repeat constructor; assumption|unfold unset; rewrite E4; discriminate]|rewrite E4; reflexivity]].
      eexists. split; [apply Ca_windows_home; [repeat constructor; assumption|apply home_is]|reflexivity].
    - unfold cache_dir. destruct (getenv (B "XDG_CACHE_HOME")) eqn:E.
      + eexists. split; [apply Ca_other_home; [exact E|apply home_is]|reflexivity].
      + eexists. split; [apply Ca_other; unfold unset; rewrite E; discriminate|rewrite E; reflexivity]. }
  assert (U : forall es es', CacheIn getenv os es -> CacheIn getenv os es' -> es = es').
  { assert (First : forall vars b x a b' x' a', vars = b ++ x :: a -> vars = b' ++ x' :: a' -> Forall (unset getenv) b -> Forall (unset getenv) b' -> ~ unset getenv x -> ~ unset getenv x' -> x = x').
    { induction vars as [|y vars IH]; intros b x a b' x' a' E E' F F' N N'; [destruct b; discriminate E|].
      destruct b as [|z b]; destruct b' as [|z' b']; injection E as E0 E; injection E' as E0' E'; subst.
      - reflexivity.
      - inversion F'; subst. contradiction.
      - inversion F; subst. contradiction.
      - inversion F; inversion F'; subst. exact (IH b x a b' x' a' eq_refl E' ltac:(assumption) ltac:(assumption) N N'). }
    assert (NF : forall b x a, windows_variables = b ++ x :: a -> ~ unset getenv x -> ~ Forall (unset getenv) windows_variables).
    { intros b x a E N F. rewrite Forall_forall in F. apply N, F. rewrite E. apply in_or_app. right. left. reflexivity. }
    intros es es' H H'. destruct H as [h H|b x a E F N|h F H|N|h N H]; inversion H' as [h' H1|b' x' a' E' F' N'|h' F' H1|N'|h' N' H1]; subst; try contradiction;
      try (rewrite (home_one _ _ _ H), (home_one _ _ _ H1)); try reflexivity.
    - rewrite (First _ _ _ _ _ _ _ E E' F F' N N'). reflexivity.
    - exfalso. exact (NF _ _ _ E N F').
    - exfalso. exact (NF _ _ _ E' N' F). }
  destruct T as (es & Ce & Te). split.
  - intros <-. exists es. auto.
  - intros (es' & Ce' & ->). rewrite Te, (U _ _ Ce Ce'). reflexivity.
Qed.
Print Assumptions C83_dir_exact.
Example C83_dir_case :
  let env v := if beqb v (B "HOME") then B "/home/u" else if beqb v (B "TEMP") then B "C:\t" else if beqb v (B "XDG_CACHE_HOME") then B "/x/../y/" else [] in
  cache_dir Darwin join_elems env = B "/home/u/Library/Caches/golang-autocert" /\ cache_dir Windows join_elems env = B "C:\t/golang-autocert" /\
  cache_dir OtherOS join_elems env = B "/y/golang-autocert" /\ cache_dir OtherOS join_elems ex_env = B "/root/.cache/golang-autocert" /\
  CacheIn env Windows [B "C:\t"; B "golang-autocert"].
Proof.
  cbv zeta. repeat (split; [vm_compute; reflexivity|]).
  set (env := fun v => _). change (B "C:\t") with (env (B "TEMP")). apply (Ca_windows env [B "APPDATA"; B "CSIDL_APPDATA"] (B "TEMP") [B "TMP"] eq_refl);
    [repeat constructor|vm_compute; discriminate].
Qed.
