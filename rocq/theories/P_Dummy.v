(* Property C86: the client of the tests when it is closed, or may be read once only. *)
From Coq Require Import List Lia PeanoNat.
From Verif Require Import M_Base M_Dummy S_Dummy.
Import ListNotations.

(* C86: any calls of Read and Unread *)
Theorem C86_exact : forall data calls, data <> [] -> d_run calls (new_circular data) = gives data 0 [] calls.
Proof.
  intros data calls N. assert (L : (0 < List.length data)%nat) by (destruct data; [contradiction|cbn; lia]).
  enough (H : forall calls back i next, (i <= List.length data)%nat -> next mod List.length data = (if (List.length data <=? i)%nat then 0 else i)%nat ->
    d_run calls (Circular data back i false false) = gives data next back calls) by (apply H; [lia|]; destruct (Nat.leb_spec (List.length data) 0); [lia|apply Nat.mod_0_l; lia]).
  clear calls. induction calls as [|[d|] calls IH]; intros back i next Hi Hn; [reflexivity|cbn [d_run gives]; apply (IH d i next Hi Hn)|].
  cbn [d_run gives]. unfold d_read. cbn [d_closed d_onetime d_tmp d_data d_pointer]. destruct back as [|b back]; [|cbv beta iota; f_equal; apply (IH [] i next Hi Hn)].
  rewrite <- Hn. assert (Hl : (next mod List.length data < List.length data)%nat) by (apply Nat.mod_upper_bound; lia).
  destruct (nth_error data (next mod List.length data)) as [piece|] eqn:E; [|apply nth_error_None in E; lia]. cbv beta iota. pose proof (nth_error_nth _ _ [] E) as En. fold bytes in *. rewrite En. f_equal.
  apply (IH [] (S (next mod List.length data)) (S next)); [lia|]. destruct (Nat.leb_spec (List.length data) (S (next mod List.length data))).
  - pose proof (Nat.div_mod next (List.length data) ltac:(lia)) as D. replace (S next) with (0 + (S (next / List.length data)) * List.length data)%nat by lia.
    rewrite Nat.mod_add by lia. apply Nat.mod_0_l. lia.
  - rewrite <- Nat.add_1_r, Nat.add_mod by lia. rewrite (Nat.mod_small 1) by lia. rewrite Nat.add_1_r. apply Nat.mod_small. lia.
Qed.
Print Assumptions C86_exact.
(* C86: after Close every Read says EOF, whatever is given back *)
Theorem C86_closed_exact : forall calls c, d_run calls (d_close c) = map (fun _ => DEof) (filter is_read calls).
Proof.
  induction calls as [|[d|] calls IH]; intros c; [reflexivity| |].
  - cbn [d_run filter is_read]. exact (IH (d_unread c d)).
  - cbn [d_run filter is_read map]. unfold d_read. cbn [d_close d_closed]. f_equal. exact (IH c).
Qed.
Print Assumptions C86_closed_exact.
(* C86: after OneTime the first Read is as ever, all others say EOF, whatever is given back *)
Theorem C86_once_exact : forall calls c, d_closed c = false ->
  d_run (None :: calls) (d_one_time c) = fst (d_read c) :: map (fun _ => DEof) (filter is_read calls).
Proof.
  intros calls [data tmp i cl once] E. cbn [d_closed] in E. subst cl. cbn [d_run]. unfold d_one_time, d_read. cbn [d_closed d_onetime d_tmp d_data d_pointer].
  assert (K : forall c, d_closed c = true -> d_run calls c = map (fun _ => DEof) (filter is_read calls)).
  { intros c Hc. rewrite <- (C86_closed_exact calls c). f_equal. destruct c. cbn in Hc. subst. reflexivity. }
  destruct once; cbn [d_closed d_onetime d_tmp d_data d_pointer]; (destruct tmp as [|b tmp]; [destruct (nth_error data _) as [piece|]|]; cbn [fst]; f_equal; apply K; reflexivity).
Qed.
Print Assumptions C86_once_exact.
Example C86_ends_case : d_run [Some (B "x"); None; None] (d_close (new_circular [B "a"])) = [DEof; DEof] /\
  d_run [None; Some (B "x"); None] (d_one_time (new_circular [B "a"])) = [DData (B "a"); DEof].
Proof. split; reflexivity. Qed.
