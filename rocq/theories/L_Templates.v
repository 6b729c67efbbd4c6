From Verif Require Import M_Base M_Path M_Radix S_Routes S_Templates L_Base.
From Coq Require Import Lia List.
Import ListNotations.

Lemma eqb_not (a b : byte) : a <> b -> Byte.eqb a b = false.
Proof. intros N. destruct (Byte.eqb a b) eqn:E; [apply Byte.byte_dec_bl in E; contradiction|reflexivity]. Qed.
Lemma eqb_yes (a : byte) : Byte.eqb a a = true.
Proof. apply Byte.byte_dec_lb. reflexivity. Qed.

Definition onto (acc : list seg) (r : terr + list seg) : terr + list seg := match r with inl e => inl e | inr l => inr (acc ++ l) end.
Lemma onto_then acc s r : onto acc (then_seg s r) = onto (acc ++ [s]) r.
Proof. destruct r; cbn; [reflexivity|]. rewrite <- app_assoc. reflexivity. Qed.

Lemma run_static : forall s cur rest acc, ~ In SLASH s -> no_open s -> tparse_loop TStatic cur (s ++ rest) acc = tparse_loop TStatic (cur ++ s) rest acc.
Proof.
  induction s as [|c s IH]; intros cur rest acc N1 N2; cbn [app]; [rewrite app_nil_r; reflexivity|].
  cbn [tparse_loop]. rewrite (eqb_not c SLASH), (eqb_not c LBRACE) by (intros ->; try (apply N1; left; reflexivity); apply N2; left; reflexivity).
  rewrite IH; [rewrite <- app_assoc; reflexivity| |]; intros I; [apply N1|apply N2]; right; exact I.
Qed.
Lemma run_dynamic : forall s cur rest acc, ~ In SLASH s -> plain_name s -> tparse_loop TDynamic cur (s ++ rest) acc = tparse_loop TDynamic (cur ++ s) rest acc.
Proof.
  induction s as [|c s IH]; intros cur rest acc N1 [N2 N3]; cbn [app]; [rewrite app_nil_r; reflexivity|].
  cbn [tparse_loop]. rewrite (eqb_not c RBRACE), (eqb_not c SLASH), (eqb_not c LBRACE) by (intros ->; first [apply N1; left; reflexivity|apply N2; left; reflexivity|apply N3; left; reflexivity]).
  cbn [orb]. rewrite IH; [rewrite <- app_assoc; reflexivity| |].
  - intros I; apply N1; right; exact I.
  - split; intros I; [apply N2|apply N3]; right; exact I.
Qed.
Lemma join_more p ps : ps <> [] -> join_slash (p :: ps) = p ++ SLASH :: join_slash ps.
Proof. destruct ps; [contradiction|reflexivity]. Qed.
Lemma first_static c s k rest acc : c <> SLASH -> c <> LBRACE -> ~ In SLASH s -> no_open s ->
  tparse_loop TSlash (slashes k) ((c :: s) ++ rest) acc = tparse_loop TStatic (slashes k ++ c :: s) rest acc.
Proof.
  intros N1 N2 N3 N4. cbn [app tparse_loop]. rewrite (eqb_not _ _ N1), (eqb_not _ _ N2), run_static by assumption. rewrite <- app_assoc. reflexivity.
Qed.
Lemma slash_not_brace : SLASH <> LBRACE /\ SLASH <> RBRACE /\ LBRACE <> RBRACE. Proof. repeat split; discriminate. Qed.

Ltac notin H := let I := fresh in intros I; apply H; cbn [In]; rewrite ?in_app_iff; tauto.

Lemma behind_sound : forall k ps r, Behind k ps r -> Forall slash_free ps -> forall acc, tparse_loop TSlash (slashes k) (join_slash ps) acc = onto acc r.
Proof.
  assert (EQ : Byte.eqb SLASH SLASH = true) by reflexivity.
  induction 1 as [k|k ps r Ne H IH|k n P|k n ps r P Ne H IH|k n P|k n ps P Ne|k n x ps P|k n c x ps P|c Nc|k s Ns No L|k s ps r Ns No Ne H IH|k a x ps Na No]; intros F acc; inversion F as [|q qs SF F']; subst.
  - cbn. rewrite app_nil_r. reflexivity.
  - rewrite join_more by exact Ne. cbn [app tparse_loop]. rewrite EQ. rewrite <- (IH F' acc). f_equal. unfold slashes. rewrite <- repeat_cons. reflexivity.
  - cbn [join_slash]. assert (N1 : ~ In SLASH n) by (notin SF). change (LBRACE :: n ++ [RBRACE]) with ([LBRACE] ++ n ++ [RBRACE]).
    cbn [app tparse_loop]. change (Byte.eqb LBRACE SLASH) with false. change (Byte.eqb LBRACE LBRACE) with true. cbn iota. rewrite run_dynamic by assumption. cbn [tparse_loop app].
    change (Byte.eqb RBRACE RBRACE) with true. cbn iota. destruct n; reflexivity.
  - rewrite join_more by exact Ne. assert (N1 : ~ In SLASH n) by (notin SF). rewrite onto_then.
    cbn [app tparse_loop]. change (Byte.eqb LBRACE SLASH) with false. change (Byte.eqb LBRACE LBRACE) with true. cbn iota. rewrite <- app_assoc, run_dynamic by assumption. cbn [tparse_loop app].
    change (Byte.eqb RBRACE RBRACE) with true. cbn iota. rewrite EQ. apply (IH F').
  - cbn [join_slash]. assert (N1 : ~ In SLASH n) by (notin SF).
    cbn [tparse_loop]. change (Byte.eqb LBRACE SLASH) with false. change (Byte.eqb LBRACE LBRACE) with true. cbn iota. rewrite <- (app_nil_r n), run_dynamic by assumption. cbn. rewrite app_nil_r. reflexivity.
  - rewrite join_more by exact Ne. assert (N1 : ~ In SLASH n) by (notin SF).
    cbn [app tparse_loop]. change (Byte.eqb LBRACE SLASH) with false. change (Byte.eqb LBRACE LBRACE) with true. cbn iota. rewrite run_dynamic by assumption. reflexivity.
  - assert (N1 : ~ In SLASH n) by (notin SF). assert (J : exists t, join_slash ((LBRACE :: n ++ LBRACE :: x) :: ps) = LBRACE :: n ++ LBRACE :: t).
    { destruct ps as [|b0 ps]; [exists x; reflexivity|]. exists (x ++ SLASH :: join_slash (b0 :: ps)). rewrite join_more by discriminate. cbn [app]. rewrite <- app_assoc. reflexivity. }
    destruct J as [t ->]. cbn [tparse_loop]. change (Byte.eqb LBRACE SLASH) with false. change (Byte.eqb LBRACE LBRACE) with true. cbn iota. rewrite run_dynamic by assumption. reflexivity.
  - assert (N1 : ~ In SLASH n) by (notin SF). assert (N2 : c <> SLASH) by (intros ->; apply SF; right; apply in_app_iff; right; right; left; reflexivity).
    assert (J : exists t, join_slash ((LBRACE :: n ++ RBRACE :: c :: x) :: ps) = LBRACE :: n ++ RBRACE :: c :: t).
    { destruct ps as [|b0 ps]; [exists x; reflexivity|]. exists (x ++ SLASH :: join_slash (b0 :: ps)). rewrite join_more by discriminate. cbn [app]. rewrite <- app_assoc. reflexivity. }
    destruct J as [t ->]. cbn [tparse_loop]. change (Byte.eqb LBRACE SLASH) with false. change (Byte.eqb LBRACE LBRACE) with true. cbn iota. rewrite run_dynamic by assumption. cbn [tparse_loop].
    change (Byte.eqb RBRACE RBRACE) with true. cbn iota. rewrite (eqb_not _ _ N2). reflexivity.
  - cbn [join_slash]. assert (N1 : c <> SLASH) by (intros ->; apply SF; left; reflexivity). cbn [tparse_loop]. rewrite (eqb_not _ _ N1), (eqb_not _ _ Nc). cbn. rewrite app_nil_r. reflexivity.
  - cbn [join_slash]. destruct s as [|c s]; [contradiction|].
    assert (c <> SLASH) by (intros ->; apply SF; left; reflexivity). assert (c <> LBRACE) by (intros ->; apply No; left; reflexivity).
    rewrite <- (app_nil_r (c :: s)) at 1. rewrite first_static; [|assumption|assumption|intros I; apply SF; right; exact I|intros I; apply No; right; exact I].
    cbn [tparse_loop]. destruct (slashes k ++ c :: s) as [|y [|z t]] eqn:E; [| |reflexivity]; exfalso; apply (f_equal (@List.length byte)) in E; rewrite app_length in E; unfold slashes in E; rewrite repeat_length in E; cbn [List.length] in *; lia.
  - rewrite join_more by exact Ne. destruct s as [|c s]; [contradiction|].
    assert (c <> SLASH) by (intros ->; apply SF; left; reflexivity). assert (c <> LBRACE) by (intros ->; apply No; left; reflexivity).
    rewrite first_static; [|assumption|assumption|intros I; apply SF; right; exact I|intros I; apply No; right; exact I].
    cbn [tparse_loop]. rewrite EQ, onto_then. apply (IH F').
  - destruct a as [|c s]; [contradiction|].
    assert (c <> SLASH) by (intros ->; apply SF; left; reflexivity). assert (c <> LBRACE) by (intros ->; apply No; left; reflexivity).
    assert (J : exists t, join_slash (((c :: s) ++ LBRACE :: x) :: ps) = (c :: s) ++ LBRACE :: t).
    { destruct ps as [|b0 ps]; [exists x; reflexivity|]. exists (x ++ SLASH :: join_slash (b0 :: ps)). rewrite join_more by discriminate. rewrite <- app_assoc. reflexivity. }
    destruct J as [t ->]. rewrite first_static; [|assumption|assumption|intros I; apply SF; right; apply in_app_iff; left; exact I|intros I; apply No; right; exact I].
    cbn [tparse_loop]. change (Byte.eqb LBRACE SLASH) with false. reflexivity.
Qed.

Lemma template_sound ps r : Template ps r -> Forall slash_free ps -> tparse (SLASH :: join_slash ps) = r.
Proof.
  intros H F. unfold tparse. rewrite eqb_yes. destruct H as [s No L|s No L|s ps r No Ne H|a x ps No]; inversion F as [|q qs SF F']; subst.
  - cbn [join_slash]. rewrite <- (app_nil_r s), run_static by assumption. cbn. destruct s as [|y [|z t]]; [reflexivity|reflexivity|cbn in L; lia].
  - cbn [join_slash]. rewrite <- (app_nil_r s) at 1. rewrite run_static by assumption. cbn. destruct s as [|y [|z t]]; [cbn in L; lia|cbn in L; lia|reflexivity].
  - rewrite join_more, run_static by assumption. cbn [tparse_loop app]. rewrite eqb_yes.
    pose proof (behind_sound 0 ps r H F' [SStatic s]) as Q. unfold slashes in Q. cbn [repeat] in Q. rewrite Q. destruct r; reflexivity.
  - assert (J : exists t, join_slash ((a ++ LBRACE :: x) :: ps) = a ++ LBRACE :: t).
    { destruct ps as [|b0 ps]; [exists x; reflexivity|]. exists (x ++ SLASH :: join_slash (b0 :: ps)). rewrite join_more by discriminate. rewrite <- app_assoc. reflexivity. }
    destruct J as [t ->]. rewrite run_static; [|intros I; apply SF; apply in_app_iff; left; exact I|exact No]. reflexivity.
Qed.

(* every piece is of one of the forms *)
Lemma open_or (s : bytes) : no_open s \/ exists a x, s = a ++ LBRACE :: x /\ no_open a.
Proof.
  induction s as [|c s IH]; [left; intros []|]. destruct (Byte.byte_eq_dec c LBRACE) as [->|N]; [right; exists [], s; split; [reflexivity|intros []]|].
  destruct IH as [IH|(a & x & -> & IH)]; [left; intros [I|I]; [congruence|exact (IH I)]|]. right. exists (c :: a), x. split; [reflexivity|]. intros [I|I]; [congruence|exact (IH I)].
Qed.
Lemma name_or (s : bytes) : plain_name s \/ (exists n x, s = n ++ LBRACE :: x /\ plain_name n) \/ (exists n x, s = n ++ RBRACE :: x /\ plain_name n).
Proof.
  induction s as [|c s IH]; [left; split; intros []|].
  destruct (Byte.byte_eq_dec c LBRACE) as [->|N1]; [right; left; exists [], s; split; [reflexivity|split; intros []]|].
  destruct (Byte.byte_eq_dec c RBRACE) as [->|N2]; [right; right; exists [], s; split; [reflexivity|split; intros []]|].
  assert (C : forall n, plain_name n -> plain_name (c :: n)) by (intros n [P Q]; split; intros [I|I]; congruence || auto).
  destruct IH as [IH|[(n & x & -> & IH)|(n & x & -> & IH)]]; [left; auto|right; left|right; right]; exists (c :: n), x; split; auto.
Qed.
Lemma behind_total : forall ps k, ps <> [] -> exists r, Behind k ps r.
Proof.
  induction ps as [|p ps IH]; intros k Ne; [contradiction|].
  assert (R : forall k, ps <> [] -> exists r, Behind k ps r) by (intros; apply IH; assumption).
  destruct p as [|c s].
  - destruct ps as [|q qs]; [eexists; apply B_end|]. destruct (R (S k)) as [r H]; [discriminate|]. exists r. apply B_empty; [discriminate|exact H].
  - destruct (Byte.byte_eq_dec c LBRACE) as [->|N].
    + destruct (name_or s) as [P|[(n & x & -> & P)|(n & x & -> & P)]].
      * destruct ps as [|q qs]; eexists; [apply B_unclosed|apply B_unclosed_slash]; [exact P|exact P|discriminate].
      * eexists. apply B_brace_in_name. exact P.
      * destruct x as [|d x]; [|eexists; apply B_suffix; exact P].
        destruct ps as [|q qs]; [eexists; apply B_param_last; exact P|]. destruct (R 0) as [r H]; [discriminate|]. eexists. apply B_param; [exact P|discriminate|exact H].
    + destruct (open_or s) as [O|(a & x & -> & O)].
      * assert (O' : no_open (c :: s)) by (intros [I|I]; [congruence|exact (O I)]).
        destruct ps as [|q qs]; [|destruct (R 0) as [r H]; [discriminate|]; eexists; apply B_static; [discriminate|exact O'|discriminate|exact H]].
        destruct (Nat.ltb_spec (k + List.length (c :: s)) 2) as [L|L].
        -- assert (k = 0) by (cbn in L; lia). subst k. destruct s as [|d s]; [|cbn in L; lia]. eexists. apply B_single. exact N.
        -- eexists. apply B_static_last; [discriminate|exact O'|exact L].
      * eexists. apply (B_prefix k (c :: a) x ps); [discriminate|]. intros [I|I]; [congruence|exact (O I)].
Qed.
Lemma template_total ps : ps <> [] -> exists r, Template ps r.
Proof.
  destruct ps as [|p ps]; intros Ne; [contradiction|]. destruct (open_or p) as [O|(a & x & -> & O)]; [|eexists; apply T_brace; exact O].
  destruct ps as [|q qs].
  - destruct (Nat.ltb_spec (List.length p) 2); eexists; [apply T_short|apply T_only]; assumption.
  - destruct (behind_total (q :: qs) 0) as [r H]; [discriminate|]. eexists. apply T_more; [exact O|discriminate|exact H].
Qed.
Theorem template_exact ps r : ps <> [] -> Forall slash_free ps -> (tparse (SLASH :: join_slash ps) = r <-> Template ps r).
Proof.
  intros Ne F. split; [|intros H; apply template_sound; assumption]. intros <-. destruct (template_total ps Ne) as [r H].
  rewrite (template_sound ps r H F). exact H.
Qed.
(* every text is of that form *)
Lemma pieces_of (s : bytes) : exists ps, ps <> [] /\ Forall slash_free ps /\ s = join_slash ps.
Proof.
  induction s as [|c s (ps & Ne & F & ->)].
  - exists [[]]. split; [discriminate|]. split; [constructor; [intros []|constructor]|reflexivity].
  - destruct (Byte.byte_eq_dec c SLASH) as [->|N].
    + exists ([] :: ps). split; [discriminate|]. split; [constructor; [intros []|exact F]|]. rewrite join_more by exact Ne. reflexivity.
    + destruct ps as [|p ps]; [contradiction|]. inversion F as [|q qs SF F']; subst. exists ((c :: p) :: ps). split; [discriminate|]. split.
      * constructor; [intros [I|I]; [congruence|exact (SF I)]|exact F'].
      * destruct ps; reflexivity.
Qed.
