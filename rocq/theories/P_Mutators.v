(* C111: mutators. *)
From Coq Require Import Permutation.
From Verif Require Import M_Base M_Status M_Method M_Proto M_KeyValue M_Query M_Request M_Parser M_Client M_Body M_Response M_Serializer M_Suit M_Middleware
  M_Path M_Radix M_Router S_Chunk S_Routes S_Router S_Mutators L_Base L_Path L_Radix L_Router L_Router5 L_RouterEx L_Chunk L_ConnProps L_Mutators P_Parser.

(* C111: for all calls on the router and its groups: the mutators of the router that runs are
   those of the router, then those of the groups, in the order of creation, each followed by
   those of its own groups ... *)
Theorem C111_order : forall W (os : list (list nat * rop W)) x, Running os x -> InOrder os [] (x_mutators x).
Proof. exact mutators_in_order. Qed.
Print Assumptions C111_order.
(* ... which leaves nothing open ... *)
Theorem C111_settled : forall W (os : list (list nat * rop W)) l l' r, InOrder os [] l -> InOrder os [] l' ->
  one_by_one l r = one_by_one l' r /\ List.length l = List.length l'.
Proof. exact order_settled. Qed.
Print Assumptions C111_settled.
(* ... and they are those of all calls, whatever the group, each once *)
Theorem C111_all : forall W (os : list (list nat * rop W)) x, Running os x ->
  exists all, Forall2 (fun call mus => Registers (full_prefix os (fst call)) (snd call) mus) os all /\ Permutation (x_mutators x) (concat all).
Proof. exact every_mutator. Qed.
Print Assumptions C111_all.
(* C111: every request and every error is routed as by a router without mutators that gets what
   they made of it, one after the other *)
Theorem C111_before_routing : forall W (x : runtime W) r, route x r = route (without x) (one_by_one (x_mutators x) r).
Proof. exact mutated_first. Qed.
Print Assumptions C111_before_routing.
Theorem C111_before_errors : forall W (x : runtime W) w r e,
  on_error x w r e = HUpdate (one_by_one (x_mutators x)) (on_err (without x) w (one_by_one (x_mutators x) r) (EHttp e)).
Proof. exact mutated_error. Qed.
Print Assumptions C111_before_errors.

(* one mutator that adds a letter to the path; handlers note the path *)
Definition ex_note (c : N) : handler (list bytes) := fun w r => HRet (Some (set_code c new_response)) (fst w ++ [r_path r], snd w).
Definition ex_suffix : list (list nat * rop (list bytes)) :=
  [([], Mutate (fun r => set_path (r_path r ++ B "x") r)); ([], Route GET (B "/ax") (ex_note 200%N) []); ([], OnErrors (ex_note 400%N) [])].
(* C111: false: the mutators run on a request again when its connection ends *)
Theorem C111_refuted : exists x, Running ex_suffix x /\
  fst (k_world (snd (serve ref_parse 100 ex_cfg (on_request x) (on_error x) 50
    (new_conn 100 100 100 64 [] enc_plain (KSize 0 false) (new_client [(crlf_lines [B "GET /a HTTP/1.1"; []], None)] []) ([], []))))) = [B "/ax"; B "/axx"].
Proof. eexists. split; [apply start_running; vm_compute; reflexivity|]. vm_compute. reflexivity. Qed.
Print Assumptions C111_refuted.
(* C111: the mutators of groups run for requests outside of them, after those of the router *)
Definition ex_tail (c : bytes) : rop (list bytes) := Mutate (fun r => set_path (r_path r ++ c) r).
Definition ex_order : list (list nat * rop (list bytes)) :=
  [([], Group (B "/api")); ([], Group (B "/web")); ([0]%nat, Group (B "/v1")); ([1]%nat, ex_tail (B "5")); ([0; 0]%nat, ex_tail (B "4")); ([0]%nat, ex_tail (B "2"));
   ([], ex_tail (B "1")); ([0]%nat, ex_tail (B "3")); ([], Route GET (B "/a12345") (ex_note 200%N) [])].
Example C111_case : exists x, Running ex_order x /\ one_by_one (x_mutators x) (set_path (B "/a") new_request) = set_path (B "/a12345") new_request /\
  exists h, snd (route x (set_path (B "/a") (set_method GET new_request))) = ToHandler h.
Proof. eexists. split; [apply start_running; vm_compute; reflexivity|]. split; [vm_compute; reflexivity|]. eexists. vm_compute. reflexivity. Qed.
