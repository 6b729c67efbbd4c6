(* Specification of the self-signed certificate and of the addresses AutoHTTPS takes for local. *)
From Verif Require Import M_Base M_Request M_App M_Https.

(* the two files hold a certificate and the key it is for *)
Definition Pair (f : fs) (cert key : bytes) (c : certificate) : Prop :=
  f cert = Some (NFile (CWhole (BCert c))) /\ f key = Some (NFile (CWhole (BKey (c_key c)))).
(* ... and a client talking to that host at that time accepts it, if it trusts its issuer *)
Definition Usable (f : fs) (cert key host : bytes) (now : Z) : Prop :=
  exists c, Pair f cert key c /\ (c_from c <= now <= c_until c)%Z /\ In host (c_names c).

Definition HasFile (f : fs) (p : bytes) : Prop := exists c, f p = Some (NFile c).
(* nothing is there that would be taken for a certificate without being one *)
Definition Healthy (f : fs) (cert key : bytes) : Prop := HasFile f cert -> HasFile f key -> exists c, Pair f cert key c.

(* one run after the other, with what each returned; None: the process ended before *)
Inductive Life (cache cert key : bytes) : fs -> list (option (option (bytes * bytes))) -> fs -> Prop :=
| Life_nil f : Life cache cert key f [] f
| Life_cons f g h o os : Runs f (generate cache cert key) g o -> Life cache cert key g os h -> Life cache cert key f (o :: os) h.

(* names of one directory *)
Definition InDir (dir name p : bytes) : Prop := p = dir ++ B "/" ++ name /\ ~ In x2f name.

(* the forms of a letter that count as the same: lower and upper case and, for 's', the long s,
   U+017F in UTF-8 *)
Definition form_of (c : byte) (s : bytes) : Prop := (exists x, s = [x] /\ lower x = c) \/ (c = x73 /\ s = [xc5; xbf]).
Definition LocalName (host : bytes) : Prop := exists forms, Forall2 form_of (B "localhost") forms /\ host = concat forms.
(* the host in front of the first colon *)
Definition HostOf (addr host : bytes) : Prop := ~ In x3a host /\ (addr = host \/ exists port, addr = host ++ x3a :: port).
Definition octet (s : bytes) : Prop := exists n, (n < 256)%N /\ s = itoa_N n.
Definition DottedQuad (host : bytes) : Prop := exists a b c d, octet a /\ octet b /\ octet c /\ octet d /\
  host = a ++ B "." ++ b ++ B "." ++ c ++ B "." ++ d.
(* a certificate for the domain is asked for by some listener *)
Definition Certified (srcs : list source) (d : bytes) : Prop := exists s, In s srcs /\ exists ds, so_listen s = LAuto ds /\ In d ds.
