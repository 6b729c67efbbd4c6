(* https.go:125, 136, 161: the permissions of what generateSelfSignedCert makes.  os.Create opens
   with 0666 and os.MkdirAll is given 0700; the process's umask is taken off both; what is there
   already keeps the permissions it has. *)
From Verif Require Import M_Base M_Https M_Started.

Definition modes := bytes -> N.
Definition set_mode (m : modes) (p : bytes) (n : N) : modes := fun q => if beqb q p then n else m q.
(* 0666 and 0700, octal *)
Definition mode_file : N := 438.
Definition mode_dir : N := 448.
Definition prim_mode {A} (umask : N) (p : fprog A) (f : fs) (m : modes) : modes :=
  match p with
  | FMkdirAll q _ => match f q with None => set_mode m q (N.ldiff mode_dir umask) | Some _ => m end
  | FCreate q _ => match f q with None => set_mode m q (N.ldiff mode_file umask) | Some _ => m end
  | _ => m
  end.
(* n steps of a function: the files, their permissions, what is left to do *)
Fixpoint moded {A} (umask priv : N) (now : Z) (n : nat) (p : fprog A) (f : fs) (m : modes) : fs * modes * fprog A :=
  match n with
  | O => (f, m, p)
  | S n' => let '(g, q) := prim priv now p f in moded umask priv now n' q g (prim_mode umask p f m)
  end.
