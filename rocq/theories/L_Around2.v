(* Lemmas: an application and the same application using Recover first. *)
From Verif Require Import M_Base M_Status M_Method M_Proto M_KeyValue M_Query M_Request M_Parser M_Client M_Body
  M_Response M_Serializer M_Suit M_Router M_Middleware M_Bundled S_Router S_Recovered S_Around L_Recovered.

Section Around.
Variables CS W : Type.
Variable cparse : CS -> bytes -> bool -> CS * (bytes * bytes * option cerr).
Variable max : Z.
Lemma unless_refl : forall h : hprog (world W), Unless_panic cparse max h h.
Proof. intros h r b c. left. reflexivity. Qed.
Lemma unless_update : forall (g g' : request -> request) (h h' : hprog (world W)), (forall r, g' r = g r) -> Unless_panic cparse max h h' -> Unless_panic cparse max (HUpdate g h) (HUpdate g' h').
Proof. intros g g' h h' E H r b c. cbn [run_handler]. rewrite E. apply H. Qed.
Variables x x' : runtime W.
Hypothesis A : Around recovering x x'.
Lemma err_unless : forall w r e, Unless_panic cparse max (on_err x w r e) (on_err x' w r e).
Proof.
  intros w r e. unfold on_err. destruct (method_eqb (r_method r) TRACE && is_err e ErrMethodNotAllowed); [apply unless_refl|].
  assert (C : (if is_err e ErrNotFound then find_catcher (x_catchers x') (r_path r) else None) = option_map recovering (if is_err e ErrNotFound then find_catcher (x_catchers x) (r_path r) else None)).
  { destruct (is_err e ErrNotFound); [apply (ar_catchers W recovering x x' A)|reflexivity]. }
  rewrite C. destruct (if is_err e ErrNotFound then find_catcher (x_catchers x) (r_path r) else None) as [h|]; cbn [option_map]; [apply recovering_unless|].
  destruct e; try apply unless_refl.
  rewrite (ar_errors W recovering x x' A). destruct (error_handler (x_errs x) _) as [h|]; cbn [option_map]; [|apply unless_refl].
  apply unless_update; [reflexivity|]. apply recovering_unless.
Qed.
Lemma request_unless : forall w r, Unless_panic cparse max (on_request x w r) (on_request x' w r).
Proof.
  intros w r. unfold on_request. apply unless_update; [apply (ar_request W recovering x x' A)|].
  pose proof (ar_request W recovering x x' A r) as E1. pose proof (ar_target W recovering x x' A r) as E2.
  destruct (route x r) as [r1 t], (route x' r) as [r2 t']. cbn [fst snd] in *. subst r2 t'.
  destruct t; [apply recovering_unless|apply err_unless|apply unless_refl].
Qed.
Lemma error_unless : forall w r e, Unless_panic cparse max (on_error x w r e) (on_error x' w r e).
Proof.
  intros w r e. unfold on_error. rewrite (ar_mutators W recovering x x' A). apply unless_update; [reflexivity|]. apply err_unless.
Qed.
End Around.
