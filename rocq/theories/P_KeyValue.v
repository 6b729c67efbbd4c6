(* Property C17: the key-value storage behind headers, parameters and cookies. *)
From Verif Require Import M_Base M_KeyValue M_KvHeap S_KeyValue L_KeyValue L_KvHeap L_KvHeap2.

(* C17: every history of calls on a new storage is answered as by an ordered multimap with
   case-insensitive keys ([kv_call] maps each call to its model function). *)
Theorem C17_multimap : forall calls, history [] calls (snd (kv_calls kv_new calls)).
Proof. exact (fun calls => kv_calls_spec calls kv_new). Qed.
Print Assumptions C17_multimap.

(* C17: and the same from any later state *)
Theorem C17_multimap_from : forall s calls, history (kv_pairs s) calls (snd (kv_calls s calls)).
Proof. exact (fun s calls => kv_calls_spec calls s). Qed.
Print Assumptions C17_multimap_from.

(* C17: the keys listed are pairwise different up to letter case and cover all entries *)
Theorem C17_keys_distinct : forall l, NoDup (map (map lower) (distinct_keys l)) /\
  forall k, (exists v, In (k, v) l) -> exists k', In k' (distinct_keys l) /\ same_key k' k.
Proof. exact distinct_keys_ok. Qed.
Print Assumptions C17_keys_distinct.

(* C17: whatever is added to or cleared from the original and its clone afterwards, in any
   interleaving, neither sees the changes of the other *)
Theorem C17_clone_independent : forall h s h1 c cs h' s' c', slice_ok h s -> ks_clone h s = (h1, c) ->
  run_changes h1 s c cs = (h', s', c') ->
  ks_view h' s' = fold_left change_list (changes_of true cs) (ks_view h s) /\
  ks_view h' c' = fold_left change_list (changes_of false cs) (ks_view h s).
Proof. exact clone_independent. Qed.
Print Assumptions C17_clone_independent.

(* C17: any number of storages, made with any capacity, cloned, added to and cleared in any order,
   each holds what was done to it alone *)
Theorem C17_storages : forall acts h ss, fold_left act_slices acts ([], []) = (h, ss) ->
  map (ks_view h) ss = fold_left act_lists acts [].
Proof. exact storages. Qed.
Print Assumptions C17_storages.

(* C17: but the clone is not the deep copy it is documented to be: its strings still lie in
   the parser's buffer and change with the next request on the connection. *)
Theorem C17_clone_deep_refuted : exists mem hdrs next,
  href_view mem (href_clone hdrs) = [(B "Cookie", B "secret")] /\
  href_view (mem_reuse mem next) (href_clone hdrs) <> [(B "Cookie", B "secret")].
Proof. exists (B "Cookiesecret"), [((0, 6), (6, 6))], (B "Accept"). vm_compute. split; [reflexivity|discriminate]. Qed.
Print Assumptions C17_clone_deep_refuted.
(* C17: exactly when a string kept over the next request is still the same *)
Theorem C17_clone_deep_exact : forall mem new o l, (o + l <= List.length mem)%nat ->
  (sref_read (mem_reuse mem new) (o, l) = sref_read mem (o, l) <->
   forall i, (o <= i < o + l)%nat -> (i < List.length new)%nat -> nth_error new i = nth_error mem i).
Proof. exact strings_kept. Qed.
Print Assumptions C17_clone_deep_exact.

Example C17_case : snd (kv_calls kv_new
   [OAdd (B "Host") (B "a"); OAdd (B "hOST") (B "b"); OAdd (B "X") []; OGet (B "HOST"); OValues (B "host");
    OKeys; OHas (B "y"); OGet (B "y"); OLen; OClear; OLen])
  = [RNone; RNone; RNone; RVal (Some (B "a")); RList [B "a"; B "b"]; RList [B "Host"; B "X"]; RBool false;
     RVal None; RNum 3; RNone; RNum 0].
Proof. reflexivity. Qed.
Example C17_case_clone : let '(h, s) := ks_new [] 2 in let '(h, s) := ks_add 0 h s (B "a") (B "1") in
  let '(h, c) := ks_clone h s in
  slice_ok h s /\ exists h' s' c', run_changes h s c [(true, ChAdd 0 (B "b") (B "2")); (false, ChClear); (false, ChAdd 3 (B "z") [])] = (h', s', c')
  /\ ks_view h' s' = [(B "a", B "1"); (B "b", B "2")] /\ ks_view h' c' = [(B "z", [])].
Proof. vm_compute. split; [split; lia|]. eexists _, _, _. repeat split. Qed.
Example C17_case_storages : let '(h, ss) := fold_left act_slices [KNew 1; KChange 0 (ChAdd 3 (B "a") (B "1")); KClone 0; KChange 0 (ChAdd 0 (B "b") []);
    KClone 1; KChange 1 ChClear; KChange 1 (ChAdd 0 (B "z") []); KNew 0] ([], []) in
  map (ks_view h) ss = [[(B "a", B "1"); (B "b", [])]; [(B "z", [])]; [(B "a", B "1")]; []].
Proof. reflexivity. Qed.
