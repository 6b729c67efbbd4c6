(* What an ordered multimap with case-insensitive keys is: a list of entries. *)
From Verif Require Import M_Base M_KeyValue.

Definition entry := (bytes * bytes)%type.
(* keys that differ only in the case of ASCII letters *)
Definition same_key (a b : bytes) : Prop := map lower a = map lower b.
Definition same_keyb (a b : bytes) : bool := if list_eq_dec Byte.byte_eq_dec (map lower a) (map lower b) then true else false.

(* v is the value of the first entry under k *)
Definition first_value (l : list entry) (k v : bytes) : Prop :=
  exists l1 k' l2, l = l1 ++ (k', v) :: l2 /\ same_key k' k /\
    forall k1 v1, In (k1, v1) l1 -> ~ same_key k1 k.
Definition absent (l : list entry) (k : bytes) : Prop := forall k1 v1, In (k1, v1) l -> ~ same_key k1 k.

(* all values under k, in order *)
Definition all_values (l : list entry) (k : bytes) : list bytes :=
  map snd (filter (fun e => same_keyb (fst e) k) l).

(* the keys that have no equal key before them, in order *)
Fixpoint new_keys (before l : list entry) : list bytes :=
  match l with
  | [] => []
  | (k, v) :: l' =>
      (if existsb (fun e => same_keyb (fst e) k) before then [] else [k]) ++ new_keys (before ++ [(k, v)]) l'
  end.
Definition distinct_keys (l : list entry) : list bytes := new_keys [] l.

(* A history of calls, and what each call may answer when the entries are [l]. *)
Inductive kv_op := OAdd (k v : bytes) | OGet (k : bytes) | OValueOr (k d : bytes) | OValues (k : bytes)
                 | OKeys | OHas (k : bytes) | OLen | OClear | OEntries.
Inductive kv_out := RNone | RVal (v : option bytes) | RList (l : list bytes) | RBool (b : bool)
                  | RNum (n : nat) | REntries (l : list entry).

Definition answers (l : list entry) (o : kv_op) (r : kv_out) : Prop :=
  match o with
  | OAdd _ _ | OClear => r = RNone
  | OGet k => exists x, r = RVal x /\
      match x with Some v => first_value l k v | None => absent l k end
  | OValueOr k d => exists v, r = RVal (Some v) /\ (first_value l k v \/ (absent l k /\ v = d))
  | OValues k => r = RList (all_values l k)
  | OKeys => r = RList (distinct_keys l)
  | OHas k => exists b, r = RBool b /\ (b = true <-> exists k1 v1, In (k1, v1) l /\ same_key k1 k)
  | OLen => r = RNum (List.length l)
  | OEntries => r = REntries l
  end.
(* the entries after a call: only Add and Clear change them *)
Definition entries_after (l : list entry) (o : kv_op) : list entry :=
  match o with OAdd k v => l ++ [(k, v)] | OClear => [] | _ => l end.
(* a whole history of answers *)
Inductive history : list entry -> list kv_op -> list kv_out -> Prop :=
| H_nil : forall l, history l [] []
| H_cons : forall l o os r rs, answers l o r -> history (entries_after l o) os rs ->
    history l (o :: os) (r :: rs).
