(* Property C94: the files of the example application combined. *)
From Verif Require Import M_Base M_Config M_Status M_Method M_Proto M_KeyValue M_Query M_Request M_Parser M_Client M_Body
  M_Response M_Serializer M_Suit M_Path M_Radix M_Router M_Static M_Bundled M_Tools M_Resource M_Escape M_Examples
  S_Static S_Static2 S_Routes S_Router S_Examples L_Base L_Static L_Static2 L_Router5 L_Examples P_Examples.

(* C94: combined, the requests answered with files: for all paths below /static/, the answer is the file
   of that name below examples/combined/static, or not found if there are two dots in a row; one line
   is logged, what was logged before stays, nothing is stopped, and the shared buffer holds the name *)
Theorem C94_files : forall files body_error os, combined files body_error = Some os -> (forall p, f_code (files p) <> 439%N) ->
  exists h, caught os = [(B "/static", h)] /\
  forall CS cparse max w r (b : body CS) c rest, r_path r = B "/static/" ++ rest ->
  let file := B "examples/combined/static/" ++ rest in
  exists answer buffer,
    run_handler cparse max (h w r) r b c =
      HDone (Some answer) (Office (of_log (fst w) ++ [method_string (r_method r) ++ B " " ++ escape (r_path r) ++ B " " ++ itoa_N (f_code answer)])
                                  buffer (of_stopped (fst w)), snd w) r b c /\
    (NoDots file -> answer = files file) /\ (~ NoDots file -> f_code answer = 404%N) /\
    exists from to, slice (pb_buff buffer) from to = file.
Proof.
  intros files body_error os Hos Hc. rewrite combined_starts in Hos. injection Hos as <-.
  destruct (com_caught files body_error) as (pp & Hpp & E). eexists. split; [exact E|].
  intros CS cparse max w r b c rest Hr file.
  destruct (new_path_ok _ _ _ Hpp) as (Hok & Hp & Hw).
  assert (Ep : rp_prefix pp = B "/static/") by (enough (Some (rp_prefix pp) = Some (B "/static/")) by congruence; rewrite <- Hp; vm_compute; reflexivity).
  assert (Ew : rp_with pp = B "examples/combined/static/") by (enough (Some (rp_with pp) = Some (B "examples/combined/static/")) by congruence; rewrite <- Hw; vm_compute; reflexivity).
  pose proof (static_closed pp (of_path (fst w)) (r_path r) Hok) as K.
  assert (F : static_file pp (r_path r) = Some file).
  { unfold static_file. rewrite Ep, Ew, Hr. replace (Nat.leb _ _) with true by (symmetry; apply Nat.leb_le; rewrite app_length; lia). reflexivity. }
  clearbody file. unfold behind, fold_right, log_requests, static_handler, static_step. cbn [hbind].
  destruct (pp_relative pp (pp_set pp (r_path r) (of_path (fst w)))) as [[[b' from] to]|]; [|congruence].
  destruct K as [K _]. rewrite F in K. injection K as K. rewrite <- K.
  assert (H404 : f_code (resp_error (Some (EHttp ErrNotFound)) [] new_response) = 404%N) by reflexivity.
  destruct (is_safe file) eqn:S; cbn [hbind].
  - apply is_safe_dots in S. exists (files file), b'. destruct (N.eqb_spec (f_code (files file)) 439); [destruct (Hc _ e)|].
    split; [reflexivity|]. split; [reflexivity|]. split; [intros H; contradiction|]. exists from, to. symmetry. exact K.
  - exists (resp_error (Some (EHttp ErrNotFound)) [] new_response), b'. rewrite H404.
    split; [reflexivity|]. split; [intros H; apply is_safe_dots in H; congruence|]. split; [intros _; reflexivity|]. exists from, to. symmetry. exact K.
Qed.
Print Assumptions C94_files.
Example C94_files_case : exists os x, combined (fun p => set_rbody p new_response) (fun _ => []) = Some os /\ Running os x /\
  one_answer x [B "GET /static/a/b.css HTTP/1.1"; []; B "GET /static/..b HTTP/1.1"; []] =
    ([page HTTP11 GET (B "200 OK") [] (B "examples/combined/static/a/b.css"); page HTTP11 GET (B "404 Not Found") [] []],
     [B "GET /static/a/b.css 200"; B "GET /static/..b 404"]).
Proof.
  set (os := combined_ops (fun p => set_rbody p new_response) (fun _ => [])). exists os.
  assert (E : match start _ os with
    | Some x => Some (one_answer x [B "GET /static/a/b.css HTTP/1.1"; []; B "GET /static/..b HTTP/1.1"; []])
    | None => None end = Some ([page HTTP11 GET (B "200 OK") [] (B "examples/combined/static/a/b.css"); page HTTP11 GET (B "404 Not Found") [] []],
     [B "GET /static/a/b.css 200"; B "GET /static/..b 404"])) by (vm_compute; reflexivity).
  destruct (start _ os) as [x|] eqn:Ex; [|discriminate E]. exists x. split; [apply combined_starts|]. split; [apply start_running; exact Ex|].
  exact (f_equal (fun o => match o with Some p => p | None => ([], []) end) E).
Qed.
