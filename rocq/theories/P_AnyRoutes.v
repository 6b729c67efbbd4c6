(* Property C30: every router with parameters and every path, whatever the templates. *)
From Verif Require Import M_Base M_Status M_Method M_KeyValue M_Request M_Response M_Suit M_Path M_Radix M_Router
  S_Routes S_Router S_Serve L_Router L_Router5 L_RouterEx L_Serve L_Serve2 P_Router.

(* C30: wherever a request arrives, there is a place and it is answered there, or there is none
   and it gets a 404; only the empty path is left out, at which the router panics (C30_tree_exact).
   Two paths may be read as the same template; the place is one of them (C30_order_refuted) *)
Theorem C30_exact : forall W (os : list (list nat * rop W)) x r, Running os x -> HasParams os -> r_path (arrive x r) <> [] ->
  ((exists R r1, Place os (arrive x r) R r1 /\ Answered R r1 (route x r)) \/
   (Nowhere os (arrive x r) /\ ~ PathOf [] (r_path (arrive x r)) /\ exists ps, route x r = (set_params ps (arrive x r), ToError ErrNotFound))) /\
  (snd (route x r) = ToError ErrNotFound <-> Nowhere os (arrive x r) /\ ~ PathOf [] (r_path (arrive x r))).
Proof.
  intros W os x r HR Hd Hne. pose proof (dynamic_sorted W os x r HR Hd Hne) as HS. split.
  - destruct HS as [H|(H1 & H2 & ps & _ & H3)]; [left; exact H|]. right. split; [exact H1|]. split; [exact (H2 Hd)|]. exists ps. exact H3.
  - split.
    + intros E. destruct HS as [(R & r1 & HP & A1 & A2 & A3 & _)|(H1 & H2 & _)]; [|split; [exact H1|exact (H2 Hd)]]. exfalso.
      destruct (place_has W os _ _ _ (r_method r1) HP) as [(h & H)|H]; [rewrite (A1 h H) in E; discriminate E|].
      destruct (place_has W os _ _ _ GET HP) as [(h & G)|G].
      * destruct (method_eqb (r_method r1) HEAD) eqn:EM.
        -- apply L_Router.method_eqb_eq in EM. rewrite EM in H. rewrite (A2 h EM H G) in E. discriminate E.
        -- rewrite A3 in E; [discriminate E|exact H|]. intros C. rewrite C in EM. discriminate EM.
      * rewrite A3 in E; [discriminate E|exact H|]. intros _. exact G.
    + intros [H1 H2]. apply (nowhere_goes W os x r HR HS H1). intros _. exact H2.
Qed.
Print Assumptions C30_exact.
(* a route that is no proper template: its last segment is lost, so it answers elsewhere (C31) *)
Example C30_exact_case : exists x, Running [([], Route GET (B "/users/{id}/x") (say 1%N) [])] x /\
  HasParams [([], Route GET (B "/users/{id}/x") (say 1%N) [])] /\
  snd (route x (get (B "/users/7/x"))) = ToError ErrNotFound /\ snd (route x (get (B "/users/7"))) = ToHandler (say 1%N) /\
  kv_pairs (r_params (fst (route x (get (B "/users/7"))))) = [(B "id", B "7")].
Proof.
  eexists. split; [apply start_running; vm_compute; reflexivity|]. split; [|vm_compute; auto].
  exists (B "/users/{id}/x"), GET, (say 1%N). eexists. exists (B "id"). split; [left; reflexivity|]. split; [vm_compute; reflexivity|]. cbn. auto.
Qed.
