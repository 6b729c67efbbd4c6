(* Specification vocabulary for the smaller packages of M_Tools.v. *)
From Verif Require Import M_Base M_Status M_Method M_Proto M_KeyValue M_Query M_Request M_Client M_Body M_Response M_Suit M_Path M_Tools
  S_KeyValue S_Head S_Query S_Values S_Conn.

(* ---- strlenmap: a history of calls, and what a map from strings would answer ---- *)
Inductive smap_op (T : Type) := MInsert (k : bytes) (v : T) | MGet (k : bytes).
Arguments MInsert {T}. Arguments MGet {T}.
Fixpoint smap_run {T} (m : smap T) (ops : list (smap_op T)) : option (list (option T)) :=
  match ops with
  | [] => Some []
  | MInsert k v :: ops' => match smap_insert m k v with Some m' => smap_run m' ops' | None => None end
  | MGet k :: ops' =>
      match smap_get m k with
      | None => None
      | Some r => match smap_run m ops' with Some l => Some (r :: l) | None => None end
      end
  end.
(* [Looked l k r]: r is the first value inserted under k *)
Definition Looked {T} (l : list (bytes * T)) (k : bytes) (r : option T) : Prop :=
  match r with
  | Some v => exists a b, l = a ++ (k, v) :: b /\ ~ In k (map fst a)
  | None => ~ In k (map fst l)
  end.
(* the answers to the Gets, in order, when the entries l have been inserted before *)
Inductive SmapAnswers {T} : list (bytes * T) -> list (smap_op T) -> list (option T) -> Prop :=
| SA_nil : forall l, SmapAnswers l [] []
| SA_insert : forall l k v ops rs, SmapAnswers (l ++ [(k, v)]) ops rs -> SmapAnswers l (MInsert k v :: ops) rs
| SA_get : forall l k r ops rs, Looked l k r -> SmapAnswers l ops rs -> SmapAnswers l (MGet k :: ops) (r :: rs).

(* ---- the request log ---- *)
(* [lines]: the log; [seen]: the calls of the router so far.  The handlers leave the log alone. *)
Definition LeavesLog {CS W} cparse max (lines : W -> list bytes) (on_request : W -> request -> hprog W) (on_error : W -> request -> http_error -> hprog W) : Prop :=
  (forall w r r0 (b : body CS) c resp w' r' b' c', run_handler cparse max (on_request w r) r0 b c = HDone resp w' r' b' c' -> lines w' = lines w) /\
  (forall w r e r0 (b : body CS) c resp w' r' b' c', run_handler cparse max (on_error w r e) r0 b c = HDone resp w' r' b' c' -> lines w' = lines w).
(* a logger that appends to it, which the application does not notice otherwise *)
Definition Appends {W A} (lines : W -> list bytes) (rest : W -> A) (logger : bytes -> W -> W) : Prop :=
  forall l w, lines (logger l w) = lines w ++ [l] /\ rest (logger l w) = rest w.

(* no control characters, in particular no line breaks *)
Definition plain_line (l : bytes) : Prop := forall x, In x l -> printable x \/ utf8_tail x.

(* ---- generated requests ---- *)
Definition gen_line (p : entry) : hline := HLine (fst p) 1 (snd p) true.
Definition gen_head (path decoded : bytes) (q : option bytes) (l : list entry) : head :=
  Head GET (SLASH :: path) (SLASH :: decoded) q HTTP11 true (map gen_line l) true.
(* headers that can be sent: names without colon and line break, values without line feed and
   leading space, and no Content-Length *)
Definition good_header (p : entry) : Prop :=
  ~ In x3a (fst p) /\ ~ In CR (fst p) /\ ~ In LF (fst p) /\ ~ In LF (snd p) /\ hd CR (snd p) <> SP /\
  ~ same_key (fst p) (B "content-length").

(* ---- dumped requests ---- *)
Definition Occurs (sub s : bytes) : Prop := exists a b, s = a ++ sub ++ b.
(* name=value pairs joined with '&' *)
Fixpoint params_text (l : list entry) : bytes :=
  match l with
  | [] => []
  | [(k, v)] => k ++ B "=" ++ v
  | (k, v) :: l' => k ++ B "=" ++ v ++ B "&" ++ params_text l'
  end.
(* the query of a request: none, or one that means l *)
Inductive QueryIs : query -> option (list entry) -> Prop :=
| QI_none : forall q, q_raw q = [] -> QueryIs q None
| QI_some : forall q d l, q_raw q <> [] -> fresh_query q -> PctDecodes (q_raw q) d -> QueryText d l -> QueryIs q (Some l).
Definition target_text (path : bytes) (q : option (list entry)) : bytes :=
  path ++ match q with None => [] | Some l => B "?" ++ params_text l end.
Definition version_name (p : proto) : bytes :=
  match p with HTTP10 => B "HTTP/1.0" | HTTP11 => B "HTTP/1.1" | HTTP2 => B "HTTP/2" | PUnknown => [] end.
(* requests whose dump can be read again: nothing in them looks like a separator *)
Record Dumpable (r : request) (q : option (list entry)) : Prop := {
  du_method : r_method r <> MUnknown;
  du_proto : r_proto r <> PUnknown;
  du_path : ~ In SP (r_path r);
  du_query : QueryIs (r_query r) q;
  du_params : forall l k v, q = Some l -> In (k, v) l -> ~ In SP k /\ ~ In SP v;
  du_headers : forall k v, In (k, v) (kv_pairs (r_headers r)) ->
    ~ Occurs (B ": ") k /\ ~ Occurs CRLF k /\ ~ Occurs CRLF v /\ ~ same_key k (B "content-length");
  du_length : (0 <= r_content_length r < two63)%Z
}.
(* what is read from the dump *)
Definition ReadBack (r : request) (q : option (list entry)) (text : bytes) (t : treq) : Prop :=
  t_method t = r_method r /\ t_path t = target_text (r_path r) q /\ t_proto t = version_name (r_proto r) /\
  kv_pairs (t_headers t) = kv_pairs (r_headers r) ++ [(B "Content-Length", itoa (len text))] /\ t_body t = text.

(* two requests that cannot be told apart *)
Definition SameRequest (a b : treq) : Prop :=
  t_method a = t_method b /\ t_path a = t_path b /\ t_proto a = t_proto b /\ t_body a = t_body b /\
  forall k, all_values (kv_pairs (t_headers a)) k = all_values (kv_pairs (t_headers b)) k.
