(* Specification: slices of a shared buffer behaving like values. *)
From Verif Require Import M_Base M_Status M_Proto M_KeyValue M_Query M_Request M_Client M_Body M_Mem S_Body.

(* the decoder, its slices replaced by what they show *)
Definition by_value {CS} (mparse : CS -> bytes -> bool -> CS * (slice * nat * option cerr))
    (s : CS) (data : bytes) (tr : bool) : CS * (bytes * bytes * option cerr) :=
  let '(s', (chunk, extra, e)) := mparse s data tr in (s', (sl_get data chunk, skipn extra data, e)).
(* it returns parts of what it was given *)
Definition Within {CS} (mparse : CS -> bytes -> bool -> CS * (slice * nat * option cerr)) : Prop :=
  forall s data tr s' chunk extra e, mparse s data tr = (s', (chunk, extra, e)) ->
    (sl_off chunk + sl_len chunk <= List.length data)%nat /\ (extra <= List.length data)%nat.

(* the connection c is what the connection m shows: the same reads are to come, none larger than
   the buffer, the same bytes were pushed back, and the same was written *)
Record Shown (c : client) (m : mclient) : Prop := {
  sh_net : cl_net c = mc_net m;
  sh_room : Forall (fun ev => List.length (fst ev) <= List.length (mc_mem m))%nat (mc_net m);
  sh_pending : cl_pending c = sl_get (mc_mem m) (mc_pending m);
  sh_inside : (sl_off (mc_pending m) + sl_len (mc_pending m) <= List.length (mc_mem m))%nat;
  sh_out : cl_out c = mc_out m;
  sh_wres : cl_wres c = mc_wres m
}.

(* no Read after another accessor was called while Read was holding back bytes.  [clean]: so far
   this did not happen *)
Fixpoint Unmixed {CS} (cparse : CS -> bytes -> bool -> CS * (bytes * bytes * option cerr)) (max : Z)
    (clean : bool) (ops : list bop) (b : body CS) (c : client) : Prop :=
  match ops with
  | [] => True
  | op :: ops' =>
      let '(_, b1, c1) := body_op cparse max op b c in
      match op with
      | ORead _ => clean = true /\ Unmixed cparse max clean ops' b1 c1
      | _ => Unmixed cparse max (clean && match bd_pending b with [] => true | _ => false end) ops' b1 c1
      end
  end.
Definition is_read (op : bop) : bool := match op with ORead _ => true | _ => false end.

(* reading, using the first k bytes, pushing back the rest, as in S_Body.consume *)
Fixpoint m_consume (ks : list nat) (c : mclient) : bytes * bool * mclient :=
  match ks with
  | [] => ([], true, c)
  | k :: ks' =>
      match mc_read c with
      | ((s, None), c1) =>
          let used := firstn k (sl_get (mc_mem c1) s) in
          let '(u, ok, c2) := m_consume ks' (mc_unread c1 (sl_from (List.length used) s)) in (used ++ u, ok, c2)
      | ((_, Some _), c1) => ([], false, c1)
      end
  end.
(* the same answer, except that Read may have given other bytes, as many of them *)
Definition alike (op : bop) (o o' : bout) : Prop :=
  o = o' \/ is_read op = true /\ exists d d' e, o = RPiece d e /\ o' = RPiece d' e /\ List.length d = List.length d'.
