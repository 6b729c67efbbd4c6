(* router/inbuilt/static.go and internal/pathlib/pathlib.go: serving files. *)
From Verif Require Import M_Base M_Status M_Request M_Response M_Suit M_Path M_Router.

Definition BACKSLASH : byte := x5c.
Definition DOT : byte := x2e.

(* ---- pathlib.go ---- *)
(* pathlib.go:43-54  usingSeparator.  Ranging over a string visits the first byte of each rune;
   the separators are runes of their own. *)
Fixpoint using_separator (path : bytes) : byte :=
  match path with
  | [] => SLASH
  | c :: path' => if Byte.eqb c SLASH || Byte.eqb c BACKSLASH then c else using_separator path'
  end.
(* pathlib.go:56-64  withTrailingSep.  None: index out of range. *)
Definition with_trailing_sep (path : bytes) : option bytes :=
  match last_byte path with
  | None => None
  | Some c => if Byte.eqb c (using_separator path) then Some path else Some (path ++ [using_separator path])
  end.
(* pathlib.go:7-12: the fields that never change *)
Record replacer := Replacer { rp_max : nat; rp_prefix : bytes; rp_with : bytes }.
(* pathlib.go:14-22  NewPath *)
Definition new_path (prefix replace_with : bytes) : option replacer :=
  match with_trailing_sep prefix, with_trailing_sep replace_with with
  | Some p, Some w => Some (Replacer (Nat.max (List.length p) (List.length w)) p w)
  | _, _ => None
  end.
(* ... and those that do: buff and buffLen *)
Record pbuf := PBuf { pb_buff : bytes; pb_len : nat }.
Definition no_buf : pbuf := PBuf [] 0.
(* copy(buff[from:], s); from is at most len(buff) *)
Definition copy_at (buff : bytes) (from : nat) (s : bytes) : bytes :=
  let n := Nat.min (List.length s) (List.length buff - from) in
  firstn from buff ++ firstn n s ++ skipn (from + n) buff.
(* pathlib.go:25-32  Set.  The slice expression does not panic: the buffer is long enough. *)
Definition pp_set (pp : replacer) (path : bytes) (b : pbuf) : pbuf :=
  let offset := (rp_max pp - List.length (rp_prefix pp))%nat in
  let buff := if Nat.ltb (List.length (pb_buff b)) (offset + List.length path) then repeat x00 (offset + List.length path) else pb_buff b in
  PBuf (copy_at buff offset path) (offset + Nat.min (List.length path) (List.length buff - offset)).
(* pathlib.go:34-39  Relative.  None: slice bounds out of range.  The string returned shares
   the memory of the buffer: it is the slice from the first number up to the second. *)
Definition pp_relative (pp : replacer) (b : pbuf) : option (pbuf * nat * nat) :=
  let offset := (rp_max pp - List.length (rp_with pp))%nat in
  if Nat.ltb (List.length (pb_buff b)) offset then None
  else if Nat.ltb (pb_len b) offset then None
  else Some (PBuf (copy_at (pb_buff b) offset (rp_with pp)) (pb_len b), offset, pb_len b).
Definition slice (b : bytes) (from to : nat) : bytes := firstn (to - from) (skipn from b).

(* ---- static.go:26-42  isSafe ---- *)
Fixpoint is_safe (path : bytes) : bool :=
  match path with
  | [] => true
  | c :: path' =>
      if Byte.eqb c DOT then
        match path' with
        | d :: _ => if Byte.eqb d DOT then false else is_safe path'
        | [] => true
        end
      else is_safe path'
  end.

(* ---- static.go:15-23: the handler, by itself ---- *)
Inductive sresult := SOpen (file : bytes) | SNotFound | SPanic.
Definition static_step (pp : replacer) (b : pbuf) (path : bytes) : pbuf * sresult :=
  let b := pp_set pp path b in
  match pp_relative pp b with
  | None => (b, SPanic)
  | Some (b', from, to) =>
      let file := slice (pb_buff b') from to in
      (b', if is_safe file then SOpen file else SNotFound)
  end.
(* ... as a handler of the router.  [pget], [pput]: where its replacer is kept; [files]: the
   response File builds for a path (http/response.go:126-159; the file system is not
   modelled). *)
Definition static_handler {W} (pp : replacer) (pget : W -> pbuf) (pput : pbuf -> W -> W) (files : W -> bytes -> fields) : handler W :=
  fun w r =>
    match static_step pp (pget (fst w)) (r_path r) with
    | (b, SOpen file) => HRet (Some (files (pput b (fst w)) file)) (pput b (fst w), snd w)
    | (b, SNotFound) => HRet (Some (resp_error (Some (EHttp ErrNotFound)) [] new_response)) (pput b (fst w), snd w)
    | (_, SPanic) => HCrash
    end.
(* static.go:10-24  Static; None: panic of NewPath *)
Definition static_call {W} (prefix root : bytes) (pget : W -> pbuf) (pput : pbuf -> W -> W) (files : W -> bytes -> fields)
    (mws : list (middleware W)) : option (rop W) :=
  match new_path prefix root with
  | Some pp => Some (Catch prefix (static_handler pp pget pput files) mws)
  | None => None
  end.

(* ---- several connections at once ---- *)
(* All connections share the one replacer of the route.  The memory holds the buffers made so
   far; [sh_cur] is the current one.  Every statement of the handler counts as one step that
   nothing interrupts, which is more than Go promises. *)
Record shared := Shared { sh_heap : list bytes; sh_cur : nat; sh_len : nat }.
Definition sh_start : shared := Shared [[]] 0 0.
Fixpoint write_buf (h : list bytes) (i : nat) (b : bytes) : list bytes :=
  match h, i with
  | [], _ => []
  | _ :: h', O => b :: h'
  | x :: h', S j => x :: write_buf h' j b
  end.
Definition read_buf (h : list bytes) (i : nat) : bytes := nth i h [].
(* where a request is; its string is a slice of a buffer *)
Inductive thread :=
| TWaits (path : bytes)                                   (* before Set *)
| TSet (path : bytes)                                     (* before Relative *)
| TNamed (path : bytes) (buf from to : nat)               (* before isSafe *)
| TChecked (path : bytes) (buf from to : nat)             (* before File *)
| TOpened (path file : bytes)
| TRefused (path : bytes)
| TPanicked (path : bytes).
Definition thread_step (pp : replacer) (s : shared) (t : thread) : shared * thread :=
  match t with
  | TWaits path =>
      let b := PBuf (read_buf (sh_heap s) (sh_cur s)) (sh_len s) in
      let b' := pp_set pp path b in
      let offset := (rp_max pp - List.length (rp_prefix pp))%nat in
      if Nat.ltb (List.length (pb_buff b)) (offset + List.length path)
      then (Shared (sh_heap s ++ [pb_buff b']) (List.length (sh_heap s)) (pb_len b'), TSet path)
      else (Shared (write_buf (sh_heap s) (sh_cur s) (pb_buff b')) (sh_cur s) (pb_len b'), TSet path)
  | TSet path =>
      let b := PBuf (read_buf (sh_heap s) (sh_cur s)) (sh_len s) in
      match pp_relative pp b with
      | None => (s, TPanicked path)
      | Some (b', from, to) => (Shared (write_buf (sh_heap s) (sh_cur s) (pb_buff b')) (sh_cur s) (sh_len s), TNamed path (sh_cur s) from to)
      end
  | TNamed path buf from to =>
      (s, if is_safe (slice (read_buf (sh_heap s) buf) from to) then TChecked path buf from to else TRefused path)
  | TChecked path buf from to => (s, TOpened path (slice (read_buf (sh_heap s) buf) from to))
  | _ => (s, t)
  end.
(* a schedule says which request takes the next step *)
Fixpoint set_nth (ts : list thread) (i : nat) (t : thread) : list thread :=
  match ts, i with
  | [], _ => []
  | _ :: ts', O => t :: ts'
  | x :: ts', S j => x :: set_nth ts' j t
  end.
Definition sched_step (pp : replacer) (x : shared * list thread) (i : nat) : shared * list thread :=
  let '(s, ts) := x in
  match nth_error ts i with
  | None => (s, ts)
  | Some t => let '(s', t') := thread_step pp s t in (s', set_nth ts i t')
  end.
Definition sched (pp : replacer) (is : list nat) (x : shared * list thread) : shared * list thread :=
  fold_left (sched_step pp) is x.
