(* Lemmas: the home directory. *)
From Verif Require Import M_Base M_Path M_Https S_Dirs.

Lemma home_is : forall os getenv, Home getenv os (home_dir os getenv).
Proof.
  intros os getenv. unfold home_dir. destruct os; [|apply Ho_windows|].
  1,2: destruct (getenv (B "HOME")) eqn:E; [apply Ho_root; [discriminate|exact E]|rewrite <- E; apply Ho_set; [discriminate|unfold unset; rewrite E; discriminate]].
Qed.
Lemma home_one : forall os getenv h, Home getenv os h -> h = home_dir os getenv.
Proof.
  intros os getenv h H. destruct H as [|os N U|os N U]; [reflexivity| |]; unfold unset in U; destruct os; try congruence; cbn [home_dir];
    destruct (getenv (B "HOME")); congruence.
Qed.
