(* https.go:87-172: generateSelfSignedCert run by several processes at once (or by several
   applications of one process), on one file system. *)
From Verif Require Import M_Base M_Https.

(* one operation of a function on the files, when the system itself does not fail: the state of
   the files decides.  [priv]: the key rsa.GenerateKey returns (102), [now]: the clock (107).
   MkdirAll (161) fails if there is a file of that name; the directories above are nothing
   anybody looks at.  Create (125, 136) fails on a directory, and empties a file that is there;
   a block written to a file that is not empty any more makes it neither one thing nor the
   other. *)
Definition prim {A} (priv : N) (now : Z) (p : fprog A) (f : fs) : fs * fprog A :=
  match p with
  | FRet a => (f, FRet a)
  | FStat q k => (f, k (f q))
  | FMkdirAll q k => match f q with Some (NFile _) => (f, k false) | _ => (set_node f q NDir, k true) end
  | FCreate q k => match f q with Some NDir => (f, k false) | _ => (set_node f q (NFile CEmpty), k true) end
  | FWrite q b k => (set_node f q (written (f q) b), k true)
  | FGenKey k => (f, k (Some priv))
  | FNow k => (f, k now)
  | FMake k => (f, k true)
  end.

(* the outcome of the function; None: an error *)
Definition outcome : Type := option (bytes * bytes).
(* what is written down about a step: who emptied or wrote which file *)
Inductive fevent := EEmptied (i : nat) (q : bytes) | EWrote (i : nat) (q : bytes).
Definition note (i : nat) (p : fprog outcome) (f : fs) : list fevent :=
  match p with
  | FCreate q _ => match f q with Some NDir => [] | _ => [EEmptied i q] end
  | FWrite q _ _ => [EWrote i q]
  | _ => []
  end.
Record procs := Procs { pr_files : fs; pr_progs : list (fprog outcome); pr_log : list fevent }.
Fixpoint put_at {A} (l : list A) (i : nat) (x : A) : list A :=
  match l, i with
  | [], _ => []
  | _ :: l', O => x :: l'
  | y :: l', S j => y :: put_at l' j x
  end.
(* process i makes its next step *)
Definition turn (keys : nat -> N) (clock : nat -> Z) (i : nat) (s : procs) : procs :=
  match nth_error (pr_progs s) i with
  | None => s
  | Some p => let '(f, p') := prim (keys i) (clock i) p (pr_files s) in
              Procs f (put_at (pr_progs s) i p') (pr_log s ++ note i p (pr_files s))
  end.
(* the order in which the processes get their turns *)
Definition turns (keys : nat -> N) (clock : nat -> Z) (l : list nat) (s : procs) : procs :=
  fold_left (fun s i => turn keys clock i s) l s.
(* n processes are started *)
Definition started (cache cert key : bytes) (n : nat) (f : fs) : procs := Procs f (repeat (generate cache cert key) n) [].
