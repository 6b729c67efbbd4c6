(* internal/keyvalue: ordered multimap used for headers, query, path parameters, cookies. *)
From Verif Require Import M_Base.

(* internal/keyvalue/storage.go:8-19.  Capacities are irrelevant. *)
Definition pair_t := (bytes * bytes)%type.
Record storage := Storage {
  kv_pairs : list pair_t;
  kv_unique : list bytes;
  kv_values : list bytes
}.

(* storage.go:21-30 *)
Definition kv_new : storage := Storage [] [] [].

(* storage.go:35-49  NewFromMap: Go's map iteration order is arbitrary, so the model takes
   the iteration order as the given list of entries. *)
Definition kv_add (s : storage) (k v : bytes) : storage :=
  Storage (kv_pairs s ++ [(k, v)]) (kv_unique s) (kv_values s).
Definition kv_from_map (m : list (bytes * list bytes)) : storage :=
  fold_left (fun s e => fold_left (fun s v => kv_add s (fst e) v) (snd e) s) m kv_new.

(* storage.go:78-86  Get *)
Fixpoint pairs_get (l : list pair_t) (key : bytes) : option bytes :=
  match l with
  | [] => None
  | (k, v) :: l' => if equal_fold key k then Some v else pairs_get l' key
  end.
Definition kv_get (s : storage) (key : bytes) : option bytes := pairs_get (kv_pairs s) key.

(* storage.go:60-74  Value, ValueOr *)
Definition kv_value_or (s : storage) (key or : bytes) : bytes :=
  match kv_get s key with Some v => v | None => or end.
Definition kv_value (s : storage) (key : bytes) : bytes := kv_value_or s key [].

(* storage.go:92-106  Values: collects into the reused buffer; the result (None = nil) is
   that buffer, so it is overwritten by the next call. *)
Fixpoint pairs_values (l : list pair_t) (key : bytes) (acc : list bytes) : list bytes :=
  match l with
  | [] => acc
  | (k, v) :: l' => pairs_values l' key (if equal_fold k key then acc ++ [v] else acc)
  end.
Definition kv_values_of (s : storage) (key : bytes) : storage * option (list bytes) :=
  let vs := pairs_values (kv_pairs s) key [] in
  (Storage (kv_pairs s) (kv_unique s) vs,
   match vs with [] => None | _ => Some vs end).

(* storage.go:177-185  contains *)
Fixpoint kv_contains (c : list bytes) (key : bytes) : bool :=
  match c with
  | [] => false
  | e :: c' => if equal_fold e key then true else kv_contains c' key
  end.

(* storage.go:112-124  Keys *)
Fixpoint pairs_keys (l : list pair_t) (acc : list bytes) : list bytes :=
  match l with
  | [] => acc
  | (k, _) :: l' => pairs_keys l' (if kv_contains acc k then acc else acc ++ [k])
  end.
Definition kv_keys (s : storage) : storage * list bytes :=
  let ks := pairs_keys (kv_pairs s) [] in
  (Storage (kv_pairs s) ks (kv_values s), ks).

(* storage.go:132-140  Has *)
Fixpoint pairs_has (l : list pair_t) (key : bytes) : bool :=
  match l with
  | [] => false
  | (k, _) :: l' => if equal_fold key k then true else pairs_has l' key
  end.
Definition kv_has (s : storage) (key : bytes) : bool := pairs_has (kv_pairs s) key.

(* storage.go:143-145  Len *)
Definition kv_len (s : storage) : nat := List.length (kv_pairs s).

(* storage.go:149-155  Clone (clone copies contents, line 187-196) *)
Definition kv_clone (s : storage) : storage :=
  Storage (kv_pairs s) (kv_unique s) (kv_values s).

(* storage.go:164-167  Clear *)
Definition kv_clear (s : storage) : storage := Storage [] (kv_unique s) (kv_values s).
