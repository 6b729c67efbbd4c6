(* Property C30: the tree of routes by itself. *)
From Verif Require Import M_Base M_KeyValue M_Path M_Radix S_Split S_Routes S_Tree L_Radix.

(* C30: a tree that was filled by insertions panics for the empty path and for no other, and
   always comes to an end *)
Theorem C30_tree_exact : forall P root (n : node P) path params, Filled (new_node root) n ->
  (match_path n path params = MPanic <-> path = []) /\ match_path n path params <> MStuck.
Proof.
  intros P root n path params H. assert (I : exists ts, insert_all P ts (new_node root) = Some n).
  { revert H. generalize (new_node root). intros n0 H. induction H as [n|t p n n1 n' H _ (ts & IH)]; [exists []; reflexivity|].
    exists ((t, p) :: ts). cbn [insert_all]. rewrite H. exact IH. }
  destruct I as (ts & I). destruct path as [|c path]; [split; [split; reflexivity|discriminate]|].
  assert (N : c :: path <> []) by discriminate. pose proof (match_never_panics P ts root n (c :: path) params I N) as K.
  destruct (match_path n (c :: path) params); try contradiction; (split; [split; discriminate|discriminate]).
Qed.
Print Assumptions C30_tree_exact.
Example C30_tree_case : exists n, Filled (new_node None) n /\
  match_path n [] kv_new = MPanic /\ match_path n (B "/a/b") kv_new = MFound 1%nat (kv_add kv_new (B "x") (B "b")) /\ match_path n (B "a") kv_new = MNone kv_new.
Proof. eexists. split; [eapply (Fl_insert [SStatic (B "a"); SWild (B "x")] 1%nat); [vm_compute; reflexivity|apply Fl_done]|]. vm_compute. repeat split. Qed.
