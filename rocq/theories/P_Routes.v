(* Properties C31 and C32: templates and normal paths. *)
From Verif Require Import M_Base M_Path M_Radix S_Routes L_Base L_Path.

(* ------------------------------------------------------------------------------------ *)
(* C31: false as it stands. *)
(* a well-formed template is refused *)
Theorem C31_accepts_refuted : exists t, Forall good_seg t /\ t <> [] /\ tparse (template_text t) = inl TNotWhole.
Proof.
  exists [SWild (B "x")]. split; [|split; [discriminate|reflexivity]].
  constructor; [|constructor]. repeat split; intros [H|[]]; discriminate.
Qed.
Print Assumptions C31_accepts_refuted.
(* a template loses its last segment, when that is a single character *)
Theorem C31_segments_refuted : exists t, Forall good_seg t /\ tparse (template_text t) <> inr t /\
  tparse (template_text t) = inr [SStatic (B "users")].
Proof.
  exists [SStatic (B "users"); SStatic (B "x")]. split; [|split; [discriminate|reflexivity]].
  repeat constructor; try discriminate; intros H; cbn in H; intuition discriminate.
Qed.
Print Assumptions C31_segments_refuted.
(* a malformed template is accepted *)
Theorem C31_refuses_refuted : exists p, Unclosed p /\ tparse (B "/users/" ++ p) = inr [SStatic (B "users")].
Proof.
  exists (B "{name"). split; [|reflexivity]. exists (B "name"). split; [reflexivity|]. intros H. cbn in H. intuition discriminate.
Qed.
Print Assumptions C31_refuses_refuted.
(* an empty segment becomes part of the next one *)
Theorem C31_empty_segment_refuted : tparse (B "/ab//cd") = inr [SStatic (B "ab"); SStatic (B "/cd")].
Proof. reflexivity. Qed.
Print Assumptions C31_empty_segment_refuted.

(* C31: all templates with static or named segments, the first one static, are accepted and
   split into their segments, except that a last segment of a single character is dropped. *)
Theorem C31_accepted_partial : forall t, Forall good_seg t -> (forall s t', t = s :: t' -> exists x, s = SStatic x) ->
  tparse (template_text t) = inr (drop_single t).
Proof. exact template_accepted. Qed.
Print Assumptions C31_accepted_partial.
(* C31: an accepted template without empty segments is split into exactly its segments as
   written, or these without the last one, which is a single character or an unclosed
   parameter.  In particular all other segments are well-formed: no brace in static text, no
   brace or slash in a name. *)
Theorem C31_split_partial : forall ps p t, Forall (fun s => s <> [] /\ slash_free s) (ps ++ [p]) ->
  tparse (SLASH :: join_slash (ps ++ [p])) = inr t ->
  Forall good_seg t /\ (map seg_text t = ps ++ [p] \/ (map seg_text t = ps /\ (Unclosed p \/ List.length p = 1%nat))).
Proof. exact template_split. Qed.
Print Assumptions C31_split_partial.
(* ... and the text determines the segments *)
Theorem C31_unambiguous : forall s s', good_seg s -> good_seg s' -> seg_text s = seg_text s' -> s = s'.
Proof. exact seg_text_inj. Qed.
Print Assumptions C31_unambiguous.
(* C31: refused: templates without a leading slash *)
Theorem C31_no_slash_refused : forall p, ~ (exists p', p = SLASH :: p') -> exists e, tparse p = inl e.
Proof. exact no_leading_slash_refused. Qed.
Print Assumptions C31_no_slash_refused.
(* C31: refused: a segment with a brace inside, anywhere in the template *)
Theorem C31_bad_segment_refused : forall ps p t, Forall (fun s => s <> [] /\ slash_free s) (ps ++ [p]) ->
  Exists BadText (ps ++ [p]) -> List.length p <> 1%nat -> ~ Unclosed p -> tparse (SLASH :: join_slash (ps ++ [p])) <> inr t.
Proof. exact bad_segment_refused. Qed.
Print Assumptions C31_bad_segment_refused.

Example C31_example : tparse (B "/users/{id}/posts") = inr [SStatic (B "users"); SWild (B "id"); SStatic (B "posts")].
Proof. reflexivity. Qed.
Example C31_example_bad : exists e, tparse (B "/users/{id}x/posts") = inl e /\ exists e', tparse (B "/users/a{id}/posts") = inl e'.
Proof. eexists. split; [reflexivity|]. eexists. reflexivity. Qed.
(* the hypotheses of C31_accepted_partial hold of it *)
Example C31_example_good : Forall good_seg [SStatic (B "users"); SWild (B "id"); SStatic (B "posts")] /\
  template_text [SStatic (B "users"); SWild (B "id"); SStatic (B "posts")] = B "/users/{id}/posts".
Proof. split; [|reflexivity]. repeat constructor; try discriminate; intros H; cbn in H; intuition discriminate. Qed.

(* ------------------------------------------------------------------------------------ *)
(* C32: normalization only strips trailing slashes, for all paths *)
Theorem C32_only_strips : forall p, exists k, p = normalize p ++ repeat SLASH k.
Proof. exact normalize_strips. Qed.
Print Assumptions C32_only_strips.
(* C32: ... is idempotent *)
Theorem C32_idempotent : forall p, normalize (normalize p) = normalize p.
Proof. exact normalize_twice. Qed.
Print Assumptions C32_idempotent.
(* C32: ... and strips all of them, of paths with at least two characters before the last
   other one *)
Theorem C32_strips_all_partial : forall q c k, (2 <= List.length q)%nat -> c <> SLASH -> normalize (q ++ c :: repeat SLASH k) = q ++ [c].
Proof. exact normalize_eats. Qed.
Print Assumptions C32_strips_all_partial.
(* C32: shorter paths keep all of them *)
Theorem C32_short_refuted : normalize (B "/a/") = B "/a/" /\ normalize (B "/a") = B "/a" /\ normalize (B "//") = B "//" /\ normalize (B "/a///") = B "/a///".
Proof. vm_compute. auto. Qed.
Print Assumptions C32_short_refuted.
Example C32_example : normalize (B "/static/img///") = B "/static/img".
Proof. reflexivity. Qed.
