(* The instant that stands for no date. *)
From Coq Require Import List ZArith Lia.
From Verif Require Import M_Base M_KeyValue M_Response M_Time M_CookieJar S_KeyValue S_Response S_Values S_Agent L_Time L_Time2 L_Time3 L_Time4.
Import ListNotations.
Open Scope Z_scope.

Theorem no_expiry : forall t, expires_of t = None <-> t_nsec t = 0 /\ exists n, OnDay n (Date 1 1 1) /\ t_unix t = 86400 * n.
Proof.
  assert (D : OnDay (-719162) (Date 1 1 1)).
  { pose proof (go_on_day (epoch - 719162)) as H. replace (epoch - 719162 - epoch) with (-719162) in H by lia.
    replace (go_date (epoch - 719162)) with (Date 1 1 1) in H by (vm_compute; reflexivity). exact H. }
  intros t. unfold expires_of, is_zero. split.
  - destruct (Z.eqb_spec (t_unix t) (-62135596800)) as [E|E]; cbn [andb]; [|discriminate]. destruct (Z.eqb_spec (t_nsec t) 0) as [E'|E']; [|discriminate].
    intros _. split; [exact E'|]. exists (-719162). split; [exact D|]. lia.
  - intros (H0 & n & Hn & Ht). assert (n = -719162) by (rewrite (on_day_number _ _ Hn), <- (on_day_number _ _ D); reflexivity). subst n.
    rewrite H0, Ht. reflexivity.
Qed.
