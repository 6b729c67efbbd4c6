(* Small routers for the examples, and the default error handlers. *)
From Coq Require Import Permutation Sorted.
From Verif Require Import M_Base M_Status M_Method M_Proto M_KeyValue M_Query M_Request M_Response M_Suit M_Path M_Radix M_Router S_Routes S_Router
  L_Base L_Path L_Radix L_Router L_Router2 L_Router3 L_Router4 L_Router5 L_Router6.

(* ---- the default error handlers ---- *)
Lemma handler_for_default : forall W (os : list (list nat * rop W)) c, NoErrorHandlers os ->
  handler_for os c = if (c =? AllErrors)%N then Some default_all_errors
     else if (c =? 405)%N then Some default_method_not_allowed else None.
Proof.
  intros W os c H. unfold handler_for. generalize (if (c =? AllErrors)%N then Some (@default_all_errors W) else if (c =? 405)%N then Some default_method_not_allowed else None) as acc.
  induction os as [|[ad o] os IH]; intros acc; [reflexivity|]. cbn [fold_left snd]. destruct o; try (apply IH; intros a h0 cs Hi; apply (H a h0 cs); right; exact Hi).
  exfalso. apply (H ad h codes). left. reflexivity.
Qed.
(* without error handlers and middlewares of the application *)
Theorem default_answers : forall W (os : list (list nat * rop W)) x w r e, Running os x -> NoErrorHandlers os -> uses os [] = [] ->
  ~ (r_method r = TRACE /\ e = ErrMethodNotAllowed) -> (e = ErrNotFound -> caught os = []) ->
  exists f, on_err x w r (EHttp e) = HUpdate (set_error (EHttp e)) (HRet (Some f) w) /\ f_code f = he_code e /\ f_body f = [] /\
    (he_code e = 405%N -> f_headers f = [(B "Allow", env_allowed (r_env r))]).
Proof.
  intros W os x w r e HR HN HU HT HC. rewrite (errors_handled W os x w r e HR HT).
  - unfold error_choice. rewrite HU. cbn [behind fold_right]. rewrite !(handler_for_default W os _ HN). rewrite N.eqb_refl.
    destruct (N.eqb_spec (he_code e) AllErrors) as [E0|N0].
    + eexists. split; [unfold default_all_errors; cbn; reflexivity|]. cbn. split; [reflexivity|]. split; [reflexivity|]. rewrite E0. discriminate.
    + destruct (N.eqb_spec (he_code e) 405) as [E1|N1].
      * unfold default_method_not_allowed. change (equal_fold (B "Allow") (B "content-type")) with false.
        unfold resp_header. change (equal_fold (B "Allow") (B "content-type")) with false. change (equal_fold (B "Allow") (B "transfer-encoding")) with false. cbn iota.
        eexists. split; [reflexivity|]. rewrite E1. split; [reflexivity|]. split; [reflexivity|]. intros _. reflexivity.
      * eexists. split; [unfold default_all_errors; cbn; reflexivity|]. cbn. split; [reflexivity|]. split; [reflexivity|]. intros H. contradiction.
  - intros ->. rewrite (HC eq_refl). intros p h [].
Qed.

(* ---- examples: handlers that answer with a code and their log ---- *)
Definition say (n : N) : handler (list nat) := fun w r => HRet (Some (set_code n new_response)) w.
Definition note (n : nat) : middleware (list nat) := mark (fun l n => l ++ [n]) n.
Definition get (path : bytes) : request := set_path path (set_method GET new_request).
(* what a handler program returns, if it only updates the request and returns *)
Fixpoint outcome {W} (p : hprog W) (r : request) : option (N * request * W) :=
  match p with
  | HUpdate f p' => outcome p' (f r)
  | HRet (Some f) w => Some (f_code f, r, w)
  | _ => None
  end.
Definition run (os : list (list nat * rop (list nat))) (r : request) : option (N * list pair_t * bytes * list nat) :=
  match start (list nat) os with
  | Some x => match outcome (on_request x ([], []) r) r with
              | Some (c, r', w) => Some (c, kv_pairs (r_params r'), env_allowed (r_env r'), fst w)
              | None => None
              end
  | None => None
  end.
