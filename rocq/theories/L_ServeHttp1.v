(* Lemmas behind P_ServeHttp1.v. *)
From Verif Require Import M_Base M_Config M_Status M_Request M_Parser M_Client M_Body M_Response M_Suit M_ServeHttp1 M_Dummy S_Head S_Values S_ServeHttp1 L_Values.

Lemma fill_positive : forall src s, s <> SCookiesPreAllocate -> (0 <= get_setting s src)%Z -> (0 < get_setting s (fill src))%Z.
Proof.
  intros src s N H. rewrite fill_setting by exact N. destruct (Z.eq_dec (get_setting s src) 0); [|lia]. destruct s; cbv; reflexivity.
Qed.
Lemma app_config_last : forall tunes src, app_config (tunes ++ [src]) = fill src.
Proof. intros tunes src. unfold app_config. rewrite fold_left_app. reflexivity. Qed.
Lemma app_config_positive : forall tunes s, s <> SCookiesPreAllocate -> (forall src, In src tunes -> (0 <= get_setting s src)%Z) -> (0 < get_setting s (app_config tunes))%Z.
Proof.
  intros tunes s N H. destruct tunes as [|src tunes _] using rev_ind; [destruct s; try contradiction; reflexivity|].
  rewrite app_config_last. apply fill_positive; [exact N|]. apply H. apply in_or_app. right. now left.
Qed.

Section Once.
Variable CS W : Type.
Variable cparse : CS -> bytes -> bool -> CS * (bytes * bytes * option cerr).
Variable on_request : W -> request -> hprog W.
Variable on_error : W -> request -> http_error -> hprog W.
Theorem serve_rounds : forall max cfg n (st : conn CS W),
  (forall fin, rounds (serve_once cparse on_request on_error max cfg) n st = Some fin -> forall k, serve cparse max cfg on_request on_error (n + k) st = fin) /\
  (rounds (serve_once cparse on_request on_error max cfg) n st = None -> exists st', serve cparse max cfg on_request on_error n st = (EndStuck, st')).
Proof.
  intros max cfg. induction n as [|n IH]; intros st.
  - split; [discriminate|]. intros _. exists st. reflexivity.
  - cbn [rounds]. unfold serve_once. split.
    + intros fin H k. cbn [plus serve]. destruct (client_read (k_client st)) as [[data e] c1]. destruct e; [injection H as <-; reflexivity|].
      destruct (parse cfg (k_parser (set_k_client c1 st)) data); try (injection H as <-; reflexivity).
      * destruct (IH (set_k_parser p (set_k_client c1 st))) as [I _]. apply (I _ H k).
      * destruct (on_head cparse max on_request on_error (set_k_parser p (set_k_client c1 st)) extra) as [f|st']; [injection H as <-; reflexivity|].
        destruct (IH st') as [I _]. apply (I _ H k).
    + intros H. cbn [serve]. destruct (client_read (k_client st)) as [[data e] c1]. destruct e; [discriminate|].
      destruct (parse cfg (k_parser (set_k_client c1 st)) data); try discriminate.
      * destruct (IH (set_k_parser p (set_k_client c1 st))) as [_ I]. apply (I H).
      * destruct (on_head cparse max on_request on_error (set_k_parser p (set_k_client c1 st)) extra) as [f|st']; [discriminate|].
        destruct (IH st') as [_ I]. apply (I H).
Qed.
End Once.

(* ---- dummy client ---- *)
Lemma cycle_from : forall data n i, data <> [] -> (i <= List.length data)%nat ->
  d_run (repeat None n) (Circular data [] i false false) = map (fun j => DData (nth (j mod List.length data) data [])) (seq i n).
Proof.
  intros data n. induction n as [|n IH]; intros i N L; [reflexivity|].
  assert (P : (0 < List.length data)%nat) by (destruct data; [contradiction|cbn; lia]).
  cbn [repeat d_run]. unfold d_read. cbn [d_closed d_onetime d_tmp d_data d_pointer]. cbn [seq map].
  destruct (List.length data <=? i)%nat eqn:E.
  - apply Nat.leb_le in E. assert (i = List.length data) by lia. subst i. rewrite Nat.mod_same by lia.
    destruct (nth_error data 0) as [d|] eqn:Ed; [|apply nth_error_None in Ed; lia]. pose proof (nth_error_nth data _ ([] : bytes) Ed) as En; cbv beta iota; f_equal; [congruence|].
    rewrite IH by (try assumption; lia).
    replace (S (List.length data)) with (1 + List.length data)%nat by lia.
    clear. revert data. intros data. generalize 1%nat as k. induction n as [|n IH]; intros k; [reflexivity|]. cbn [seq map]. f_equal; [|apply (IH (S k))].
    destruct (List.length data) eqn:El; [destruct data; [destruct (k mod 0)%nat, ((k + 0) mod 0)%nat; reflexivity|discriminate]|]. rewrite <- El. replace (k + List.length data)%nat with (k + 1 * List.length data)%nat by lia. rewrite Nat.mod_add by lia. reflexivity.
  - apply Nat.leb_gt in E. rewrite Nat.mod_small by exact E. destruct (nth_error data i) as [d|] eqn:Ed; [|apply nth_error_None in Ed; lia]. pose proof (nth_error_nth data _ ([] : bytes) Ed) as En; cbv beta iota; f_equal; [congruence|]. apply IH; [exact N|lia].
Qed.
