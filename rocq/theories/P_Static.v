(* Properties C36 - C39: file serving and TRACE. *)
From Verif Require Import M_Base M_Status M_Method M_Proto M_KeyValue M_Query M_Request M_Response M_Suit M_Path M_Radix M_Router M_Static S_Routes S_Router S_Static
  L_Base L_Path L_Router5 L_Router7 L_RouterEx L_Static S_Static2 L_Static2 L_Static3.

(* ------------------------------------------------------------------------------------ *)
(* C36: false as it stands.  Static("/static//", "/srv/files"): the catcher gets "/static",
   and a file outside of the root is opened. *)
Theorem C36_refuted : exists prefix root pp b path file, new_path prefix root = Some pp /\ SlashPath root /\
  Prefix (path_join [] prefix) path /\ snd (static_step pp b path) = SOpen file /\ file = B "/srv/file" /\ root = B "/srv/files" /\ ~ InRoot root file.
Proof.
  exists (B "/static//"), (B "/srv/files"). eexists. exists no_buf, (B "/static"). eexists.
  split; [vm_compute; reflexivity|]. split; [intros a b H; destruct a as [|c a]; [discriminate|left; apply (f_equal (hd x00)) in H; symmetry; exact H]|].
  split; [exists []; reflexivity|]. split; [vm_compute; reflexivity|]. split; [reflexivity|]. split; [reflexivity|].
  intros (rest & H & _). vm_compute in H. discriminate.
Qed.
Print Assumptions C36_refuted.
(* ... or the handler panics *)
Theorem C36_panic_refuted : exists prefix root pp b path, new_path prefix root = Some pp /\ Prefix (path_join [] prefix) path /\ snd (static_step pp b path) = SPanic.
Proof.
  exists (B "/static///////"), (B "."). eexists. exists no_buf, (B "/static"). split; [vm_compute; reflexivity|]. split; [exists []; reflexivity|]. vm_compute. reflexivity.
Qed.
Print Assumptions C36_panic_refuted.

(* C36: for all prefixes, roots, paths and earlier requests: the file has no two dots in a row,
   and is the root plus a suffix of the path, below the root by its names, or the root itself
   without its separator.  The request must not be shorter than the prefix, which holds
   whenever the catcher's prefix is not shorter than the given one (C36_caught).
   Missing: other prefixes (refuted); roots whose first separator is a backslash.  An empty
   name is never opened (root "/", request for the prefix itself). *)
Theorem C36_below_partial : forall prefix root pp b path file, new_path prefix root = Some pp -> SlashPath root ->
  (List.length (rp_prefix pp) <= S (List.length path))%nat -> snd (static_step pp b path) = SOpen file ->
  NoDots file /\ (file = [] \/ InRoot root file) /\
  ((List.length (rp_prefix pp) <= List.length path)%nat -> exists rest, Suffix rest path /\ file = rp_with pp ++ rest).
Proof. exact below_root. Qed.
Print Assumptions C36_below_partial.
Theorem C36_caught : forall prefix root pp catch path, new_path prefix root = Some pp ->
  (List.length prefix <= List.length catch)%nat -> Prefix catch path -> (List.length (rp_prefix pp) <= S (List.length path))%nat.
Proof. exact caught_long_enough. Qed.
Print Assumptions C36_caught.
(* C36: nor does it panic then *)
Theorem C36_no_panic_partial : forall prefix root pp b path, new_path prefix root = Some pp ->
  (List.length (rp_prefix pp) <= S (List.length path))%nat -> snd (static_step pp b path) <> SPanic.
Proof. exact no_panic. Qed.
Print Assumptions C36_no_panic_partial.
(* C36: earlier requests never matter *)
Theorem C36_history : forall pp b b' path, pp_ok pp -> snd (static_step pp b path) = snd (static_step pp b' path).
Proof. intros pp b b' path H. rewrite !history_irrelevant by exact H. reflexivity. Qed.
Print Assumptions C36_history.
(* C36: the check is exact *)
Theorem C36_check : forall p, is_safe p = true <-> NoDots p.
Proof. exact is_safe_dots. Qed.
Print Assumptions C36_check.
(* C36: exactly what is opened, refused with 404, or panics, for all prefixes, roots, requests
   and earlier requests *)
Theorem C36_exact : forall prefix root pp, new_path prefix root = Some pp ->
  exists P W, WithEnd prefix P /\ WithEnd root W /\ forall b path,
    (forall file, snd (static_step pp b path) = SOpen file <->
       (List.length P <= List.length W + List.length path)%nat /\ file = NameOf P W path /\ NoDots file) /\
    (snd (static_step pp b path) = SNotFound <-> (List.length P <= List.length W + List.length path)%nat /\ ~ NoDots (NameOf P W path)) /\
    (snd (static_step pp b path) = SPanic <-> (List.length W + List.length path < List.length P)%nat).
Proof. exact static_exact. Qed.
Print Assumptions C36_exact.
(* ... and the registration itself panics exactly with an empty prefix or root *)
Theorem C36_registered_exact : forall prefix root, new_path prefix root = None <-> prefix = [] \/ root = [].
Proof. exact no_path_exact. Qed.
Print Assumptions C36_registered_exact.
(* C36: a request with two dots in a row behind the prefix gets 404, whatever the root *)
Theorem C36_refused : forall W (pget : W -> pbuf) pput files prefix root pp w r rest, new_path prefix root = Some pp -> SlashPath prefix -> last_byte prefix <> Some SLASH ->
  r_path r = prefix ++ SLASH :: rest -> ~ NoDots rest ->
  exists b, static_handler pp pget pput files w r = HRet (Some (Fields 404%N [] (B "text/html") [] [] [] [] None)) (pput b (fst w), snd w).
Proof. exact dots_refused. Qed.
Print Assumptions C36_refused.
Example C36_example : exists pp, new_path (B "/static") (B "./public") = Some pp /\
  snd (static_step pp no_buf (B "/static/css/a.css")) = SOpen (B "./public/css/a.css") /\
  snd (static_step pp (fst (static_step pp no_buf (B "/static/css/a.css"))) (B "/static/b")) = SOpen (B "./public/b") /\
  snd (static_step pp no_buf (B "/static/../secret")) = SNotFound /\
  snd (static_step pp no_buf (B "/static")) = SOpen (B "./public").
Proof. eexists. split; [vm_compute; reflexivity|]. vm_compute. repeat split. Qed.

(* ------------------------------------------------------------------------------------ *)
(* C37: false.  Two requests at once: the first passes the check with its own path, and then
   opens the path of the second, which leaves the root. *)
Theorem C37_refuted : exists pp order paths file, new_path (B "/static") (B "/srv") = Some pp /\
  paths = [B "/static/readme-first-please"; B "/static/../../../etc/passwd"] /\
  nth_error (snd (sched pp order (sh_start, map TWaits paths))) 0 = Some (TOpened (B "/static/readme-first-please") file) /\
  file = B "/srv/../../../etc/passwd".
Proof.
  eexists. exists [0; 0; 0; 1; 1; 0]%nat. eexists. eexists. split; [vm_compute; reflexivity|]. split; [reflexivity|]. split; [vm_compute; reflexivity|]. reflexivity.
Qed.
Print Assumptions C37_refuted.
(* ... or simply gets the file of the other *)
Theorem C37_other_file_refuted : exists pp order, new_path (B "/static") (B "/srv") = Some pp /\
  nth_error (snd (sched pp order (sh_start, map TWaits [B "/static/mine.txt"; B "/static/your.txt"]))) 0 = Some (TOpened (B "/static/mine.txt") (B "/srv/your.txt")).
Proof. eexists. exists [0; 1; 0; 0; 0]%nat. split; vm_compute; reflexivity. Qed.
Print Assumptions C37_other_file_refuted.

(* C37: requests that do not overlap, in any number and order and after any other requests,
   open the files of their own paths, or are refused (outcome_of).
   Missing: everything else. *)
Theorem C37_serial_partial : forall pp order s ts, pp_ok pp -> sh_ok s -> NoDup order ->
  (forall i, In i order -> exists path, nth_error ts i = Some (TWaits path)) ->
  forall i path, In i order -> nth_error ts i = Some (TWaits path) ->
  nth_error (snd (sched pp (flat_map (fun i => [i; i; i; i]) order) (s, ts))) i = Some (outcome_of pp path).
Proof. exact serial_requests. Qed.
Print Assumptions C37_serial_partial.
(* C37: more than that: for every schedule, a request opens the file of its own path, or is
   refused, if between its Set and its File no other request does a Set or a Relative; the
   others may check and open what they have meanwhile, and anything may come before and after *)
Theorem C37_alone_partial : forall pp before after s ts0 i path m1 m2 m3, pp_ok pp -> sh_ok s ->
  nth_error (snd (sched pp before (s, ts0))) i = Some (TWaits path) ->
  ~ In i (m1 ++ m2 ++ m3) -> Readers (m1 ++ m2 ++ m3) (snd (sched pp before (s, ts0))) ->
  nth_error (snd (sched pp (before ++ i :: m1 ++ i :: m2 ++ i :: m3 ++ i :: after) (s, ts0))) i = Some (outcome_of pp path).
Proof. exact alone_requests. Qed.
Print Assumptions C37_alone_partial.
Example C37_alone_example : exists pp, new_path (B "/static") (B "/srv") = Some pp /\
  nth_error (snd (sched pp ([0; 0] ++ 1 :: [0] ++ 1 :: [0] ++ 1 :: [] ++ 1 :: [])%nat (sh_start, map TWaits [B "/static/mine.txt"; B "/static/your.txt"]))) 1 =
    Some (TOpened (B "/static/your.txt") (B "/srv/your.txt")).
Proof.
  eexists. split; [vm_compute; reflexivity|]. rewrite (C37_alone_partial _ [0; 0]%nat [] _ _ 1%nat (B "/static/your.txt")); [vm_compute; reflexivity|reflexivity|vm_compute; repeat constructor|reflexivity| |].
  - intros [H|[H|[]]]; discriminate.
  - intros j t [<-|[<-|[]]] H; vm_compute in H; injection H as <-; exact I.
Qed.
(* C37: however the requests interleave, none panics whose paths are all long enough *)
Theorem C37_no_panic_partial : forall prefix root pp order paths, new_path prefix root = Some pp ->
  Forall (fun path => (List.length (rp_prefix pp) <= S (List.length path))%nat) paths ->
  forall path, ~ In (TPanicked path) (snd (sched pp order (sh_start, map TWaits paths))).
Proof. exact never_panics. Qed.
Print Assumptions C37_no_panic_partial.
Example C37_example : exists pp, new_path (B "/static") (B "/srv") = Some pp /\
  snd (sched pp [1; 1; 1; 1; 0; 0; 0; 0]%nat (sh_start, map TWaits [B "/static/readme-first-please"; B "/static/../../../etc/passwd"])) =
  [TOpened (B "/static/readme-first-please") (B "/srv/readme-first-please"); TRefused (B "/static/../../../etc/passwd")].
Proof. eexists. split; [vm_compute; reflexivity|]. vm_compute. reflexivity. Qed.

(* ------------------------------------------------------------------------------------ *)
(* C38: false in groups: the prefix of the group is not replaced, but that many bytes are cut
   off *)
Theorem C38_group_refuted : exists pp, new_path (B "/static") (B "/srv") = Some pp /\
  path_join (B "/api") (B "/static") = B "/api/static" /\
  snd (static_step pp no_buf (B "/api/static/a.txt")) = SOpen (B "/srv/tic/a.txt").
Proof. eexists. split; [vm_compute; reflexivity|]. split; vm_compute; reflexivity. Qed.
Print Assumptions C38_group_refuted.
(* C38: other paths that start with the same letters are served, too, without their first
   letter *)
Theorem C38_neighbour_refuted : exists pp, new_path (B "/static") (B "/srv") = Some pp /\
  Prefix (path_join [] (B "/static")) (B "/staticpage") /\ snd (static_step pp no_buf (B "/staticpage")) = SOpen (B "/srv/age").
Proof. eexists. split; [vm_compute; reflexivity|]. split; [exists (B "page"); reflexivity|]. vm_compute. reflexivity. Qed.
Print Assumptions C38_neighbour_refuted.
(* C38: with two dots in a row in the root, nothing is served *)
Theorem C38_dotted_root : forall prefix root pp b path, new_path prefix root = Some pp -> ~ NoDots root ->
  (List.length (rp_prefix pp) <= List.length path)%nat -> snd (static_step pp b path) = SNotFound.
Proof. exact dotted_root. Qed.
Print Assumptions C38_dotted_root.

(* C38: a request for prefix/rest opens root/rest, whatever the requests before *)
Theorem C38_file_partial : forall prefix root pp b rest, new_path prefix root = Some pp -> SlashPath prefix -> NoDots (rp_with pp ++ rest) ->
  (last_byte prefix <> Some SLASH -> snd (static_step pp b (prefix ++ SLASH :: rest)) = SOpen (rp_with pp ++ rest)) /\
  (last_byte prefix = Some SLASH -> snd (static_step pp b (prefix ++ rest)) = SOpen (rp_with pp ++ rest)).
Proof. exact served_file. Qed.
Print Assumptions C38_file_partial.
(* C38: the same through the router: a Static route of the root router, with a clean prefix,
   among any other calls.  Missing: groups (refuted), unclean prefixes (C36_refuted). *)
Theorem C38_route_partial : forall W pget pput files (os : list (list nat * rop W)) x w r prefix root o rest,
  Running os x -> static_call prefix root pget pput files [] = Some o -> In ([], o) os -> uses os [] = [] ->
  path_clean prefix = prefix -> SlashPath prefix -> last_byte prefix <> Some SLASH ->
  r_path r = prefix ++ SLASH :: rest ->
  (forall p h, In (p, h) (caught os) -> Prefix p (r_path r) -> p = prefix \/ (List.length p < List.length prefix)%nat) ->
  (forall h h', In (prefix, h) (caught os) -> In (prefix, h') (caught os) -> h = h') ->
  forall w', with_trailing_sep root = Some w' -> NoDots (w' ++ rest) ->
  exists b, on_err x w r (EHttp ErrNotFound) = HRet (Some (files (pput b (fst w)) (w' ++ rest))) (pput b (fst w), snd w).
Proof. exact static_served. Qed.
Print Assumptions C38_route_partial.
Example C38_example : exists o x b,
  static_call (B "/static") (B "./public") (fun b => b) (fun b _ => b) (fun _ file => set_rbody file new_response) [] = Some o /\
  Running [([], o)] x /\
  on_err x (no_buf, []) (get (B "/static/a.txt")) (EHttp ErrNotFound) = HRet (Some (set_rbody (B "./public/a.txt") new_response)) (b, []).
Proof.
  eexists. eexists. eexists. split; [vm_compute; reflexivity|]. split; [apply start_running; vm_compute; reflexivity|]. vm_compute. reflexivity.
Qed.

(* ------------------------------------------------------------------------------------ *)
(* C39: false: the buffer is never emptied; the second answer has the first request in it,
   whose sender may be somebody else *)
Definition ex_trace (cookie : bytes) : request :=
  set_headers (kv_add kv_new (B "Cookie") cookie) (set_path (B "/ab") (set_method TRACE new_request)).
Theorem C39_refuted : exists (os : list (list nat * rop (list nat))) x, Running os x /\
  trace_bodies x ([], []) [ex_trace (B "secret"); ex_trace (B "mine")] =
  [B "TRACE /ab HTTP/1.1" ++ CRLF ++ B "Cookie: secret" ++ CRLF ++ B "Content-Length: 0" ++ CRLF ++ CRLF;
   B "TRACE /ab HTTP/1.1" ++ CRLF ++ B "Cookie: secret" ++ CRLF ++ B "Content-Length: 0" ++ CRLF ++ CRLF ++
   B "TRACE /ab HTTP/1.1" ++ CRLF ++ B "Cookie: mine" ++ CRLF ++ B "Content-Length: 0" ++ CRLF ++ CRLF].
Proof.
  exists [([], Route GET (B "/ab") (say 200%N) [])]. eexists. split; [apply start_running; vm_compute; reflexivity|]. vm_compute. reflexivity.
Qed.
Print Assumptions C39_refuted.
(* C39: for all sequences of TRACE requests on all connections: each answer is the text of all
   requests so far, each as its request line and headers and "Content-Length: 0" *)
Theorem C39_accumulates_partial : forall W (x : runtime W) rs w, Forall (fun r => r_method r = TRACE) rs ->
  trace_bodies x w rs = running_concat (snd w) (map (fun r => request_text (trace_line r) (kv_pairs (r_headers r) ++ [(B "Content-Length", B "0")])) rs).
Proof. exact traces_accumulate. Qed.
Print Assumptions C39_accumulates_partial.
(* C39: so the first one is the request alone, with that header added *)
Theorem C39_first_partial : forall W (x : runtime W) w r, r_method r = TRACE -> snd w = [] ->
  let text := request_text (trace_line r) (kv_pairs (r_headers r) ++ [(B "Content-Length", B "0")]) in
  on_err x w r (EHttp ErrMethodNotAllowed) = HRet (Some (Fields 200%N [] (B "message/http") [] [] text [] None)) (fst w, text).
Proof. intros W x w r Hm Hw text. rewrite (trace_whole W x w r Hm), Hw. reflexivity. Qed.
Print Assumptions C39_first_partial.
