From Verif Require Import M_Base L_Base M_Status M_Method M_Proto.

Lemma method_round : forall m, m <> MUnknown -> method_parse (method_string m) = m.
Proof. intros []; intros H; first [congruence | reflexivity]. Qed.
Lemma method_parse_only : forall s m, method_parse s = m -> m <> MUnknown -> s = method_string m.
Proof.
  intros s m H Hm. unfold method_parse in H.
  repeat match type of H with
  | (match ?n with O => _ | S _ => _ end) = _ => destruct n
  | (if beqb s ?x then _ else _) = _ => let E := fresh in destruct (beqb s x) eqn:E; [apply beqb_eq in E; subst; reflexivity|]
  | MUnknown = _ => congruence
  end.
Qed.
Lemma proto_of_version : forall a b, proto_from_bytes (B "HTTP/" ++ [a; x2e; b]) =
  if Byte.eqb a x31 && Byte.eqb b x30 then HTTP10
  else if Byte.eqb a x31 && Byte.eqb b x31 then HTTP11
  else if Byte.eqb a x32 && Byte.eqb b x30 then HTTP2 else PUnknown.
Proof.
  intros a b. change (B "HTTP/" ++ [a; x2e; b]) with [x48; x54; x54; x50; x2f; a; x2e; b].
  cbn [proto_from_bytes]. change (beqb [x48; x54; x54; x50; x2f] (B "HTTP/")) with true. cbv iota.
  destruct a; try reflexivity; destruct b; reflexivity.
Qed.
Lemma proto_known_shape : forall raw, proto_from_bytes raw <> PUnknown ->
  exists a c b, raw = B "HTTP/" ++ [a; c; b].
Proof.
  intros raw H. unfold proto_from_bytes in H.
  destruct raw as [|h [|t1 [|t2 [|p [|sl [|a [|c [|b [|z raw]]]]]]]]]; try congruence.
  destruct (beqb [h; t1; t2; p; sl] (B "HTTP/")) eqn:E; [|congruence]. apply beqb_eq in E.
  exists a, c, b. change (B "HTTP/" ++ [a; c; b]) with ((B "HTTP/") ++ [a; c; b]). rewrite <- E. reflexivity.
Qed.
Lemma proto_exact : forall raw, nth_error raw 6 = Some x2e ->
  proto_from_bytes raw = HTTP10 \/ proto_from_bytes raw = HTTP11 ->
  raw ++ [SP] = proto_string (proto_from_bytes raw).
Proof.
  intros raw Hd H. assert (N : proto_from_bytes raw <> PUnknown) by (destruct H as [-> | ->]; discriminate).
  destruct (proto_known_shape raw N) as (a & c & b & ->). cbn in Hd. injection Hd as ->.
  rewrite proto_of_version in *.
  destruct (Byte.eqb a x31) eqn:E1; cbn [andb] in *.
  - apply beq_eq in E1. subst a. destruct (Byte.eqb b x30) eqn:E2.
    + apply beq_eq in E2. subst b. reflexivity.
    + destruct (Byte.eqb b x31) eqn:E3.
      * apply beq_eq in E3. subst b. reflexivity.
      * change (Byte.eqb x31 x32) with false in *. cbn [andb] in *. destruct H; discriminate.
  - destruct (Byte.eqb a x32 && Byte.eqb b x30); destruct H; discriminate.
Qed.

Definition known_codes : list N :=
  [100;101;102;103;200;201;202;203;204;205;206;207;208;226;300;301;302;303;304;305;307;308;400;401;402;403;404;
   405;406;407;408;409;410;411;412;413;414;415;416;417;418;421;422;423;424;425;426;428;429;431;451;500;501;502;503;
   504;505;506;507;508;510;511]%N.
Lemma line_unknown : forall c, ~ In c known_codes -> status_line c = [] /\ status_text c = B "Unknown Status Code".
Proof.
  intros c H. unfold status_line, status_text.
  destruct c as [|c]; [split; reflexivity|].
  do 9 (destruct c as [c|c|]; try (split; reflexivity); try (exfalso; apply H; vm_compute; tauto)).
Qed.
Lemma known_lines : forallb (fun c => beqb (status_line c) (itoa_N c ++ SP :: status_text c ++ CRLF) || (c =? 101)%N)
  known_codes = true.
Proof. vm_compute. reflexivity. Qed.
Lemma line_known : forall c, In c known_codes -> c <> 101%N -> status_line c = itoa_N c ++ SP :: status_text c ++ CRLF.
Proof.
  intros c H Hc. pose proof known_lines as K. rewrite forallb_forall in K. specialize (K c H).
  apply orb_true_iff in K. destruct K as [K|K]; [apply beqb_eq in K; exact K|]. apply N.eqb_eq in K. congruence.
Qed.
Lemma status_line_ok : forall c, c <> 101%N ->
  status_line c = [] \/ status_line c = itoa_N c ++ SP :: status_text c ++ CRLF.
Proof.
  intros c H. destruct (in_dec N.eq_dec c known_codes) as [Hi|Hi]; [right; apply line_known; assumption|left].
  apply line_unknown. exact Hi.
Qed.
Lemma three_digits : forall c, status_line c <> [] -> (100 <= c <= 999)%N.
Proof.
  intros c H. destruct (in_dec N.eq_dec c known_codes) as [Hi|Hi].
  - assert (K : forallb (fun c => (100 <=? c)%N && (c <=? 999)%N) known_codes = true) by (vm_compute; reflexivity).
    rewrite forallb_forall in K. specialize (K c Hi). apply andb_true_iff in K. destruct K as [K1 K2].
    apply N.leb_le in K1. apply N.leb_le in K2. lia.
  - destruct (line_unknown c Hi) as [E _]. congruence.
Qed.
