(* Specification: where the certificate of AutoHTTPS is kept, by operating system and environment. *)
From Verif Require Import M_Base M_Path M_Https.

(* the variables a user of Windows may have set, in the order in which they count *)
Definition windows_variables : list bytes := [B "APPDATA"; B "CSIDL_APPDATA"; B "TEMP"; B "TMP"].
Definition unset (getenv : bytes -> bytes) (x : bytes) : Prop := getenv x = [].
Inductive Home (getenv : bytes -> bytes) : goos -> bytes -> Prop :=
| Ho_windows : Home getenv Windows (getenv (B "HOMEDRIVE") ++ getenv (B "HOMEPATH"))
| Ho_set : forall os, os <> Windows -> ~ unset getenv (B "HOME") -> Home getenv os (getenv (B "HOME"))
| Ho_root : forall os, os <> Windows -> unset getenv (B "HOME") -> Home getenv os (B "/").
(* the directories on the way, from the outermost *)
Inductive CacheIn (getenv : bytes -> bytes) : goos -> list bytes -> Prop :=
| Ca_darwin : forall h, Home getenv Darwin h -> CacheIn getenv Darwin [h; B "Library"; B "Caches"; B "golang-autocert"]
| Ca_windows : forall before x after, windows_variables = before ++ x :: after -> Forall (unset getenv) before -> ~ unset getenv x ->
    CacheIn getenv Windows [getenv x; B "golang-autocert"]
| Ca_windows_home : forall h, Forall (unset getenv) windows_variables -> Home getenv Windows h -> CacheIn getenv Windows [h; B "golang-autocert"]
| Ca_other : ~ unset getenv (B "XDG_CACHE_HOME") -> CacheIn getenv OtherOS [getenv (B "XDG_CACHE_HOME"); B "golang-autocert"]
| Ca_other_home : forall h, unset getenv (B "XDG_CACHE_HOME") -> Home getenv OtherOS h -> CacheIn getenv OtherOS [h; B ".cache"; B "golang-autocert"].
(* how they are put together *)
Definition joined (os : goos) (windows_join : list bytes -> bytes) (es : list bytes) : bytes :=
  match os with Windows => windows_join es | _ => file_join es end.
