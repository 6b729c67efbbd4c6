(* https.go: the cache directory and the self-signed certificate kept in it, as a program over
   a file system; internal/address/address.go: which addresses are local.

   Not modelled: crypto/rsa, crypto/x509, crypto/tls, encoding/pem and autocert.  A key is a
   number, a certificate carries what the template sets (https.go:110-118), and a file holds
   nothing, a part of a PEM block, a whole one, or something else.  File modes are in M_Modes.v. *)
From Verif Require Import M_Base M_Path M_Request M_Address M_App.

(* ------------------------------------------------------------------ https.go:20-48 *)
(* runtime.GOOS, as far as the code looks at it *)
Inductive goos := Darwin | Windows | OtherOS.

Fixpoint join_elems (es : list bytes) : bytes :=
  match es with [] => [] | [e] => e | e :: es' => e ++ SLASH :: join_elems es' end.
(* path/filepath.Join outside Windows: leading empty elements are left out, the rest is joined
   by slashes and cleaned *)
Fixpoint file_join (es : list bytes) : bytes :=
  match es with
  | [] => []
  | [] :: es' => file_join es'
  | _ => path_clean (join_elems es)
  end.

Section Dirs.
Variable os : goos.
(* filepath.Join on Windows is not modelled: it is given *)
Variable win_join : list bytes -> bytes.
(* os.Getenv *)
Variable getenv : bytes -> bytes.

Definition os_join (es : list bytes) : bytes := match os with Windows => win_join es | _ => file_join es end.
(* https.go:20-28  homeDir *)
Definition home_dir : bytes :=
  match os with
  | Windows => getenv (B "HOMEDRIVE") ++ getenv (B "HOMEPATH")
  | _ => match getenv (B "HOME") with [] => B "/" | h => h end
  end.
Definition cache_base : bytes := B "golang-autocert".
(* https.go:35-39: the first of the variables that is set *)
Fixpoint first_set (vars : list bytes) : option bytes :=
  match vars with
  | [] => None
  | v :: vars' => match getenv v with [] => first_set vars' | s => Some s end
  end.
(* https.go:30-48  cacheDir *)
Definition cache_dir : bytes :=
  match os with
  | Darwin => os_join [home_dir; B "Library"; B "Caches"; cache_base]
  | Windows =>
      match first_set [B "APPDATA"; B "CSIDL_APPDATA"; B "TEMP"; B "TMP"] with
      | Some v => os_join [v; cache_base]
      | None => os_join [home_dir; cache_base]
      end
  | OtherOS =>
      match getenv (B "XDG_CACHE_HOME") with
      | [] => os_join [home_dir; B ".cache"; cache_base]
      | xdg => os_join [xdg; cache_base]
      end
  end.
(* https.go:90-91 *)
Definition cert_file : bytes := os_join [cache_dir; B "localhost.crt"].
Definition key_file : bytes := os_join [cache_dir; B "localhost.key"].
End Dirs.

(* ------------------------------------------------------------------ files *)
(* https.go:110-118: what the template says; times in seconds.  The public key is named by the
   private one.  DNSNames and IPAddresses are not set. *)
Record certificate := Cert { c_key : N; c_from : Z; c_until : Z; c_names : list bytes; c_serial : Z }.
Inductive block := BCert (c : certificate) | BKey (k : N).
Inductive content := CEmpty | CPart (b : block) | CWhole (b : block) | CJunk.
Inductive node := NDir | NFile (c : content).
Definition fs := bytes -> option node.
Definition set_node (f : fs) (p : bytes) (n : node) : fs := fun q => if beqb q p then Some n else f q.

(* what a function does to the files, one operation after the other *)
Inductive fprog (A : Type) :=
| FRet (a : A)
| FStat (p : bytes) (k : option node -> fprog A)        (* os.Stat; None: error *)
| FMkdirAll (p : bytes) (k : bool -> fprog A)           (* os.MkdirAll; false: error *)
| FCreate (p : bytes) (k : bool -> fprog A)             (* os.Create: the file is empty then *)
| FWrite (p : bytes) (b : block) (k : bool -> fprog A)  (* pem.Encode to the file created last *)
| FGenKey (k : option N -> fprog A)                     (* rsa.GenerateKey *)
| FNow (k : Z -> fprog A)                               (* time.Now *)
| FMake (k : bool -> fprog A).                          (* x509.CreateCertificate, x509.MarshalPKCS8PrivateKey *)
Arguments FRet {A}. Arguments FStat {A}. Arguments FMkdirAll {A}. Arguments FCreate {A}.
Arguments FWrite {A}. Arguments FGenKey {A}. Arguments FNow {A}. Arguments FMake {A}.

(* https.go:168-172  fileExists *)
Definition is_file (n : option node) : bool := match n with Some (NFile _) => true | _ => false end.
Definition file_exists {A} (p : bytes) (k : bool -> fprog A) : fprog A := FStat p (fun n => k (is_file n)).
(* https.go:164-166  certExists: the second file is not looked at if the first is missing *)
Definition cert_exists {A} (cert key : bytes) (k : bool -> fprog A) : fprog A :=
  file_exists cert (fun ok => if ok then file_exists key k else k false).
(* https.go:156-162  mkdirIfNotExists *)
Definition mkdir_if_not_exists {A} (dir : bytes) (k : bool -> fprog A) : fprog A :=
  FStat dir (fun n => match n with Some NDir => k true | _ => FMkdirAll dir k end).

Definition ten_years : Z := 10 * 365 * 24 * 3600.
(* https.go:88-154  generateSelfSignedCert, given the directory and the two file names;
   None: an error *)
Definition generate (cache cert key : bytes) : fprog (option (bytes * bytes)) :=
  cert_exists cert key (fun ok => if ok then FRet (Some (cert, key)) else          (* 94-96 *)
  mkdir_if_not_exists cache (fun ok => if negb ok then FRet None else              (* 98-100 *)
  FGenKey (fun priv => match priv with None => FRet None | Some priv =>            (* 102-105 *)
  FNow (fun now =>                                                                 (* 107-108 *)
  FMake (fun ok => if negb ok then FRet None else                                  (* 120-123 *)
  FCreate cert (fun ok => if negb ok then FRet None else                           (* 125-129 *)
  FWrite cert (BCert (Cert priv now (now + ten_years) [] 1)) (fun ok => if negb ok then FRet None else  (* 131-134 *)
  FCreate key (fun ok => if negb ok then FRet None else                            (* 136-140 *)
  FMake (fun ok => if negb ok then FRet None else                                  (* 142-145 *)
  FWrite key (BKey priv) (fun ok => if negb ok then FRet None else                 (* 147-150 *)
  FRet (Some (cert, key))))))))) end))).                                              (* 152 *)

(* how the file system may answer.  [MadeDirs f p g]: g is f with some missing directories on
   the way to p made *)
Definition on_the_way (q p : bytes) : Prop := q = p \/ exists rest, p = q ++ SLASH :: rest.
Definition MadeDirs (f : fs) (p : bytes) (g : fs) : Prop :=
  forall q, g q = f q \/ (f q = None /\ g q = Some NDir /\ (on_the_way q p \/ q = [SLASH])).
(* a block is written to a file just created *)
Definition written (n : option node) (b : block) : node := match n with Some (NFile CEmpty) => NFile (CWhole b) | _ => NFile CJunk end.

(* [Runs f p g o]: started with the files f, p can leave the files g and return o; o is None
   if the process ends before p does.  Every operation may fail; a failing write may leave
   the file empty or with a part of the block. *)
Inductive Runs {A} : fs -> fprog A -> fs -> option A -> Prop :=
| R_killed f p : Runs f p f None
| R_ret f a : Runs f (FRet a) f (Some a)
| R_stat f p k g o : Runs f (k (f p)) g o -> Runs f (FStat p k) g o
| R_stat_err f p k g o : Runs f (k None) g o -> Runs f (FStat p k) g o
| R_mkdir f p k f' g o : MadeDirs f p f' -> f' p = Some NDir -> Runs f' (k true) g o -> Runs f (FMkdirAll p k) g o
| R_mkdir_err f p k f' g o : MadeDirs f p f' -> Runs f' (k false) g o -> Runs f (FMkdirAll p k) g o
| R_create f p k g o : f p <> Some NDir -> Runs (set_node f p (NFile CEmpty)) (k true) g o -> Runs f (FCreate p k) g o
| R_create_err f p k g o : Runs f (k false) g o -> Runs f (FCreate p k) g o
| R_write f p b k g o : Runs (set_node f p (written (f p) b)) (k true) g o -> Runs f (FWrite p b k) g o
| R_write_part f p b k g o : Runs (set_node f p (NFile (CPart b))) (k false) g o -> Runs f (FWrite p b k) g o
| R_write_err f p b k g o : Runs f (k false) g o -> Runs f (FWrite p b k) g o
| R_write_killed f p b k : Runs f (FWrite p b k) (set_node f p (NFile (CPart b))) None
| R_key f k priv g o : Runs f (k (Some priv)) g o -> Runs f (FGenKey k) g o
| R_key_err f k g o : Runs f (k None) g o -> Runs f (FGenKey k) g o
| R_now f k t g o : Runs f (k t) g o -> Runs f (FNow k) g o
| R_make f k g o : Runs f (k true) g o -> Runs f (FMake k) g o
| R_make_err f k g o : Runs f (k false) g o -> Runs f (FMake k) g o.

(* tls.LoadX509KeyPair (https.go:52): both files are read, and the keys have to match *)
Definition load_pair (f : fs) (cert key : bytes) : option (certificate * N) :=
  match f cert, f key with
  | Some (NFile (CWhole (BCert c))), Some (NFile (CWhole (BKey k))) => if N.eqb (c_key c) k then Some (c, k) else None
  | _, _ => None
  end.

(* ------------------------------------------------------------------ which addresses are local *)
(* net.dtoi (Go standard library): the number, the digits read; None if there are none or the
   number reaches 0xFFFFFF *)
Definition dec_digit (b : byte) : option N := if (48 <=? bN b)%N && (bN b <=? 57)%N then Some (bN b - 48)%N else None.
Fixpoint dtoi (s : bytes) (n : N) (i : nat) : option (N * nat) :=
  match s with
  | b :: s' =>
      match dec_digit b with
      | Some d => let n := (n * 10 + d)%N in if (16777215 <=? n)%N then None else dtoi s' n (S i)
      | None => match i with O => None | _ => Some (n, i) end
      end
  | [] => match i with O => None | _ => Some (n, i) end
  end.
(* net.parseIPv4 (Go standard library): [left] numbers are missing; [first]: no dot needed *)
Fixpoint parse_ipv4 (left : nat) (first : bool) (s : bytes) : bool :=
  match left with
  | O => match s with [] => true | _ => false end
  | S left' =>
      match (if first then Some s else match s with c :: s' => if Byte.eqb c x2e then Some s' else None | [] => None end) with
      | None => false
      | Some s =>
          match dtoi s 0 0 with
          | None => false
          | Some (n, c) =>
              if (255 <? n)%N then false
              else if (1 <? c)%nat && Byte.eqb (nth 0 s x00) x30 then false
              else parse_ipv4 left' false (skipn c s)
          end
      end
  end.
(* address.go:23-25  IsIP: stripPort leaves nothing behind a colon, so that net.ParseIP sees no
   colon and tries IPv4 only *)
Definition is_ip (addr : bytes) : bool := parse_ipv4 4 true (M_Address.strip_port addr).
(* indi.go:91 *)
Definition is_local (addr : bytes) : bool := is_localhost addr || is_ip addr.

(* indi.go:88-109  AutoHTTPS, the certificate being what generateSelfSignedCert returned *)
Definition auto_https (self_signed : option (bytes * bytes)) (addr : bytes) (domains : list bytes) (srcs : list source) : list source :=
  app_auto_https is_local self_signed addr domains srcs.
