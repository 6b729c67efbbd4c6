(* The memory behind internal/keyvalue.Storage: Go slices over shared arrays.  M_KeyValue
   models the contents only; this file models who shares which array, for Clone. *)
From Verif Require Import M_Base M_KeyValue.

(* the heap: arrays of pairs; a slice starting at index 0 of one of them *)
Definition kv_heap := list (list pair_t).
Record kv_slice := KvSlice { ks_arr : nat; ks_len : nat }.
Definition no_pair : pair_t := ([], []).

Fixpoint set_nth {A} (l : list A) (i : nat) (x : A) : list A :=
  match l, i with
  | [], _ => []
  | _ :: l', O => x :: l'
  | y :: l', S i' => y :: set_nth l' i' x
  end.

(* what the slice shows *)
Definition ks_view (h : kv_heap) (s : kv_slice) : list pair_t :=
  firstn (ks_len s) (nth (ks_arr s) h []).

(* Go's append of one element: in place when there is capacity, otherwise into a new array
   whose spare capacity [grow] is the runtime's business. *)
Definition ks_append (grow : nat) (h : kv_heap) (s : kv_slice) (x : pair_t) : kv_heap * kv_slice :=
  let a := nth (ks_arr s) h [] in
  if Nat.ltb (ks_len s) (List.length a)
  then (set_nth h (ks_arr s) (set_nth a (ks_len s) x), KvSlice (ks_arr s) (S (ks_len s)))
  else (h ++ [firstn (ks_len s) a ++ x :: repeat no_pair grow],
        KvSlice (List.length h) (S (ks_len s))).

(* internal/keyvalue/storage.go:25-30  NewPreAlloc(n) *)
Definition ks_new (h : kv_heap) (n : nat) : kv_heap * kv_slice :=
  (h ++ [repeat no_pair n], KvSlice (List.length h) 0).
(* storage.go:52-58  Add *)
Definition ks_add (grow : nat) (h : kv_heap) (s : kv_slice) (k v : bytes) : kv_heap * kv_slice :=
  ks_append grow h s (k, v).
(* storage.go:164-167  Clear: keeps the array *)
Definition ks_clear (s : kv_slice) : kv_slice := KvSlice (ks_arr s) 0.
(* storage.go:149-155, 187-196  Clone: a new array (nil for an empty slice: an array of
   capacity 0) holding copies of the pairs *)
Definition ks_clone (h : kv_heap) (s : kv_slice) : kv_heap * kv_slice :=
  (h ++ [ks_view h s], KvSlice (List.length h) (List.length (ks_view h s))).

(* The strings themselves.  internal/protocol/http1/parser.go:217,310 store headers as
   strings made by uf.B2S (no copy) of slices of the parser's buffers; a string is then
   (offset, length) in that memory, and its bytes are whatever the memory holds when it is
   read.  Clone copies the references. *)
Definition sref := (nat * nat)%type.
Definition sref_read (mem : bytes) (r : sref) : bytes := firstn (snd r) (skipn (fst r) mem).
Definition href_clone (l : list (sref * sref)) : list (sref * sref) := l.
Definition href_view (mem : bytes) (l : list (sref * sref)) : list pair_t :=
  map (fun e => (sref_read mem (fst e), sref_read mem (snd e))) l.
(* utils/buffer Append after Clear: new bytes overwrite the memory from its start *)
Definition mem_reuse (mem new : bytes) : bytes := new ++ skipn (List.length new) mem.
