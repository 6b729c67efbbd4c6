(* Lemmas behind P_Files.v. *)
From Verif Require Import M_Base M_Config M_Status M_Method M_Proto M_KeyValue M_Query M_Request M_Parser M_Client M_Body
  M_Response M_Serializer M_Suit M_Path M_Radix M_Router M_Static M_Bundled M_Tools M_Resource M_Escape M_ServeHttp1 M_Examples
  S_Static S_KeyValue S_Chunk S_Head S_Parser S_Body S_Response S_Conn S_Split S_Routes S_Router S_Serve S_ServeHttp1 S_Examples S_Files
  L_Base L_Path L_Radix L_Router5 L_Router6 L_Conn3 L_Serve L_Static L_Examples L_Examples2.

(* ---- content types ---- *)
Lemma file_ext_ending : forall p ext, file_ext p = x2e :: ext <-> Ending p ext.
Proof.
  intros p ext. unfold file_ext, Ending. destruct (cut_last p x2f) as [[d b]|] eqn:E1.
  - apply cut_last_some in E1. destruct E1 as [-> Hb]. destruct (cut_last b x2e) as [[a e]|] eqn:E2.
    + apply cut_last_some in E2. destruct E2 as [-> He]. split.
      * intros H. injection H as <-. exists (d ++ x2f :: a). split; [rewrite <- app_assoc; reflexivity|]. split; [exact He|]. intros C. apply Hb. apply in_or_app. right. right. exact C.
      * intros (a' & H & H1 & H2). f_equal. assert (E : cut_last (d ++ x2f :: a ++ x2e :: e) x2e = Some (d ++ x2f :: a, e)).
        { apply cut_last_some. split; [rewrite <- app_assoc; reflexivity|exact He]. }
        assert (E' : cut_last (a' ++ x2e :: ext) x2e = Some (a', ext)) by (apply cut_last_some; auto). rewrite H in E. congruence.
    + apply cut_last_none in E2. split; [discriminate|]. intros (a' & H & H1 & H2). exfalso.
      assert (E : cut_last (d ++ x2f :: b) x2f = Some (d, b)) by (apply cut_last_some; auto).
      destruct (cut_last a' x2f) as [[a1 a2]|] eqn:E3.
      * apply cut_last_some in E3. destruct E3 as [-> H3]. rewrite <- app_assoc in H. cbn [app] in H.
        assert (E' : cut_last (a1 ++ x2f :: a2 ++ x2e :: ext) x2f = Some (a1, a2 ++ x2e :: ext)).
        { apply cut_last_some. split; [reflexivity|]. intros C. apply in_app_or in C. destruct C as [C|[C|C]]; [auto|discriminate|auto]. }
        rewrite H in E. rewrite E in E'. injection E' as _ ->. apply E2. apply in_or_app. right. left. reflexivity.
      * apply cut_last_none in E3. assert (C : In x2f (a' ++ x2e :: ext)) by (rewrite <- H; apply in_or_app; right; left; reflexivity).
        apply in_app_or in C. destruct C as [C|[C|C]]; [auto|discriminate|auto].
  - apply cut_last_none in E1. destruct (cut_last p x2e) as [[a e]|] eqn:E2.
    + pose proof E2 as E2'. apply cut_last_some in E2'. destruct E2' as [-> He]. split.
      * intros H. injection H as <-. exists a. split; [reflexivity|]. split; [exact He|]. intros C. apply E1. apply in_or_app. right. right. exact C.
      * intros (a' & H & H1 & H2). assert (E' : cut_last (a' ++ x2e :: ext) x2e = Some (a', ext)) by (apply cut_last_some; auto). rewrite <- H in E'. congruence.
    + apply cut_last_none in E2. split; [discriminate|]. intros (a' & -> & _). destruct E2. apply in_or_app. right. left. reflexivity.
Qed.
Lemma file_ext_none : forall p, file_ext p = [] <-> forall ext, ~ Ending p ext.
Proof.
  intros p. split.
  - intros H ext C. apply file_ext_ending in C. congruence.
  - intros H. destruct (file_ext p) as [|c e] eqn:E; [reflexivity|]. assert (c = x2e) as ->.
    { unfold file_ext in E. destruct (cut_last _ x2e) as [[? ?]|]; [congruence|discriminate]. }
    apply file_ext_ending in E. destruct (H e E).
Qed.
(* the table of the program against the registry *)
Lemma registered_table : forall ext t, Registered ext t <-> In (x2e :: ext, t) mime_table.
Proof.
  intros ext t. split.
  - intros (exts & H1 & H2). cbv [media_types In] in H1.
    repeat (destruct H1 as [H1|H1]; [injection H1 as <- <-; repeat (destruct H2 as [<-|H2]; [cbv; tauto|]); destruct H2|]). destruct H1.
  - intros H. unfold mime_table in H. cbn [In] in H.
    repeat (destruct H as [H|H]; [injection H as <- <-; unfold Registered|]); try destruct H.
    all: match goal with |- exists exts, In (?t, exts) _ /\ _ =>
      let l := eval vm_compute in (match find (fun x => beqb (fst x) t) media_types with Some (_, l) => l | None => [] end) in exists l end.
    all: split; [cbv; tauto|cbv; tauto].
Qed.
Lemma mime_find_spec : forall tbl e, NoDup (map fst tbl) -> Forall (fun x => snd x <> []) tbl ->
  match mime_find tbl e with [] => forall t, ~ In (e, t) tbl | t => In (e, t) tbl end.
Proof.
  induction tbl as [|[k v] tbl IH]; intros e HN HF; cbn [mime_find]; [intros t []|].
  inversion HN as [|? ? N1 N2]; subst. inversion HF as [|? ? F1 F2]; subst. cbn [snd] in F1. specialize (IH e N2 F2). destruct (beqb k e) eqn:E.
  - apply beqb_eq in E. subst k. destruct v as [|c v]; [destruct (F1 eq_refl)|left; reflexivity].
  - destruct (mime_find tbl e) as [|c l]; [|right; exact IH]. intros t [H|H]; [|exact (IH t H)]. injection H as -> _. rewrite (proj2 (beqb_eq e e) eq_refl) in E. discriminate.
Qed.
Definition file_type (p : bytes) : bytes :=
  match mime_extension (file_ext p) with [] => B "application/octet-stream" | _ => mime_extension (file_ext p) end.
Lemma mime_nodup : NoDup (map fst mime_table).
Proof.
  assert (E : forallb (fun k => Nat.eqb (count_occ (list_eq_dec Byte.byte_eq_dec) (map fst mime_table) k) 1) (map fst mime_table) = true) by (vm_compute; reflexivity).
  apply (NoDup_count_occ' (list_eq_dec Byte.byte_eq_dec)). intros k Hk. apply (proj1 (forallb_forall _ _) E) in Hk. apply Nat.eqb_eq. exact Hk.
Qed.
Lemma file_type_media : forall p t, file_type p = t <-> MediaType p t.
Proof.
  assert (F : Forall (fun x : bytes * bytes => snd x <> []) mime_table) by (repeat constructor; discriminate).
  assert (A : forall p, MediaType p (file_type p)).
  { intros p. unfold file_type, mime_extension. pose proof (mime_find_spec mime_table (file_ext p) mime_nodup F) as H. destruct (mime_find mime_table (file_ext p)) as [|c t] eqn:E.
    - apply Mt_other. intros ext t HE HR. apply file_ext_ending in HE. rewrite HE in H. apply (H t). apply registered_table. exact HR.
    - destruct (file_ext p) as [|d ext] eqn:Ee.
      + exfalso. vm_compute in E. discriminate.
      + assert (d = x2e) as ->. { unfold file_ext in Ee. destruct (cut_last _ x2e) as [[? ?]|]; [congruence|discriminate]. }
        apply (Mt_known p ext); [apply file_ext_ending; exact Ee|apply registered_table; exact H]. }
  intros p t. split; [intros <-; apply A|]. intros H. destruct H as [ext t HE HR|H].
  - specialize (A p). inversion A as [ext' t' HE' HR' E|H' E].
    + assert (ext' = ext) as -> by (apply file_ext_ending in HE; apply file_ext_ending in HE'; congruence).
      apply registered_table in HR. apply registered_table in HR'. pose proof mime_nodup as N. clear -HR HR' N. revert N HR HR'. generalize mime_table. generalize (file_type p).
      intros u tbl. induction tbl as [|[k v] tbl IH]; [intros _ []|]. intros N [H|H] [H'|H']; cbn [map fst] in N; inversion N as [|? ? N1 N2]; subst; try congruence.
      * exfalso. apply N1. injection H as -> ->. apply (in_map fst) in H'. exact H'.
      * exfalso. apply N1. injection H' as -> ->. apply (in_map fst) in H. exact H.
      * apply IH; assumption.
    + destruct (H' ext t HE HR).
  - specialize (A p). inversion A as [ext' t' HE' HR' E|H' E]; [|congruence]. destruct (H _ _ HE' HR').
Qed.
