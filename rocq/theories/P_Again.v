(* C51: exactly when Initialize can be called again, and what it does then. *)
From Verif Require Import M_Base M_Status M_Method M_KeyValue M_Request M_Response M_Suit M_Path M_Radix M_Router S_Routes S_Router
  L_Base L_Path L_Router L_Router2 L_Router3 L_Again.

(* C51: a router that has been initialized can be initialized once more (as it is for a second
   virtual host, or when Serve is called again) exactly if every route was registered on the
   router itself: a route of a group, however deep, makes the second call panic *)
Theorem C51_repeat_exact : forall W (os : list (list nat * rop W)) a g, build os new_app = Some a -> prepare (a_root a) = Some g ->
  ((exists g2, prepare g = Some g2) <-> forall addr m p h ms, In (addr, Route m p h ms) os -> addr = []).
Proof. exact repeats. Qed.
Print Assumptions C51_repeat_exact.

(* C51: the routes it has then are those it had, each behind the router's own middlewares once
   more *)
Theorem C51_repeated_exact : forall W (os : list (list nat * rop W)) a g g2, build os new_app = Some a -> prepare (a_root a) = Some g -> prepare g = Some g2 ->
  forall p m h, (exists t, In (p, t) (rg_routes (g_reg g2)) /\ In (m, h) t) <->
    exists h0, In (p, m, h0) (registered os) /\ h = behind (uses os []) h0.
Proof. exact repeated. Qed.
Print Assumptions C51_repeated_exact.

(* a group whose only call is a catcher does not keep the router from being initialized again;
   a route two groups down does *)
Example C51_repeat_case :
  let ok : handler nat := fun w _ => HRet None w in
  let flat_app := [([], Group (B "/files")); ([], Route GET (B "/home") ok []); ([0%nat], Catch (B "/x") ok [])] in
  let deep_app := [([], Group (B "/api")); ([0%nat], Group (B "/v1")); ([0%nat; 0%nat], Route GET (B "/home") ok [])] in
  let again os := match build os new_app with
                  | Some a => match prepare (a_root a) with Some g => match prepare g with Some _ => Some true | None => Some false end | None => None end
                  | None => None
                  end in
  again flat_app = Some true /\ again deep_app = Some false.
Proof. vm_compute. auto. Qed.
