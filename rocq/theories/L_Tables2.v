(* Lemmas: exactly which tokens and lines the tables hold. *)
From Verif Require Import M_Base M_Status M_Method M_Proto L_Base L_Tables.

Lemma proto_token : forall raw p, p <> PUnknown ->
  (proto_from_bytes raw = p <-> exists x, raw = match p with HTTP10 => B "HTTP/1" ++ [x; x30] | HTTP11 => B "HTTP/1" ++ [x; x31] | _ => B "HTTP/2" ++ [x; x30] end).
Proof.
  intros raw p Hp. split.
  - intros H. destruct raw as [|h [|t1 [|t2 [|q [|sl [|a [|x [|b [|]]]]]]]]]; cbn [proto_from_bytes] in H; try congruence.
    destruct (beqb [h; t1; t2; q; sl] (B "HTTP/")) eqn:E; [|congruence]. apply beqb_eq in E. cbn in E. injection E as -> -> -> -> ->.
    exists x. pose proof (proto_of_version a b) as K. change (proto_from_bytes (B "HTTP/" ++ [a; x2e; b])) with (proto_parse (bsub a x30) (bsub b x30)) in K.
    rewrite H in K. clear H. destruct (Byte.eqb a x31 && Byte.eqb b x30) eqn:E1.
    { apply andb_true_iff in E1. destruct E1 as [A1 A2]. apply beq_eq in A1. apply beq_eq in A2. subst. reflexivity. }
    destruct (Byte.eqb a x31 && Byte.eqb b x31) eqn:E2.
    { apply andb_true_iff in E2. destruct E2 as [A1 A2]. apply beq_eq in A1. apply beq_eq in A2. subst. reflexivity. }
    destruct (Byte.eqb a x32 && Byte.eqb b x30) eqn:E3; [|congruence].
    apply andb_true_iff in E3. destruct E3 as [A1 A2]. apply beq_eq in A1. apply beq_eq in A2. subst. reflexivity.
  - intros (x & ->). destruct p; try reflexivity. congruence.
Qed.
Lemma status_line_exact : forall c, status_line c <> [] -> (status_line c = itoa_N c ++ SP :: status_text c ++ CRLF <-> c <> 101%N).
Proof.
  intros c H. split; [intros E ->; vm_compute in E; discriminate|]. intros N. destruct (status_line_ok c N) as [E|E]; [congruence|exact E].
Qed.
