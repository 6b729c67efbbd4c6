(* Specification of the response builder: what a sequence of calls amounts to. *)
From Verif Require Import M_Base M_Status M_KeyValue M_Response S_KeyValue.

(* the last value given, or a default *)
Definition last_given {A} (given : rop -> list A) (d : A) (os : list rop) : A := last (flat_map given os) d.
(* the calls behind the last Clear *)
Fixpoint fresh_calls (os acc : list rop) : list rop :=
  match os with [] => acc | RClear :: os' => fresh_calls os' [] | o :: os' => fresh_calls os' (acc ++ [o]) end.
(* what single calls give *)
Definition error_code (e : option goerr) (cs : list code) : list code :=
  match e with None => [] | Some (EHttp h) => [he_code h] | Some _ => [hd 500%N cs] end.
Definition gives_code (o : rop) : list code :=
  match o with
  | RCode c => [c]
  | RError e cs => error_code e cs
  | RJson _ e => error_code e []
  | RFile _ FNoOpen | RFile _ FDir => [404%N]
  | RFile _ FNoStat => [500%N]
  | _ => []
  end.
Definition gives_status (o : rop) : list bytes := match o with RStatus s => [s] | _ => [] end.
(* the two headers that are not sent as they are *)
Definition header_calls (o : rop) : list (bytes * list bytes) :=
  match o with RHeader k vs => [(k, vs)] | RHeaders hs => hs | _ => [] end.
Definition values_for (name : bytes) (o : rop) : list bytes :=
  flat_map (fun h => if same_keyb (fst h) name then firstn 1 (snd h) else []) (header_calls o).
(* by the table of known extensions *)
Definition file_type (path : bytes) : bytes := match mime_extension (file_ext path) with [] => B "application/octet-stream" | t => t end.
Definition gives_ctype (o : rop) : list bytes :=
  match o with
  | RContentType t => [t]
  | RJson _ _ => [B "application/json"]
  | RFile path (FFile _ _) => [file_type path]
  | _ => values_for (B "content-type") o
  end.
Definition gives_te (o : rop) : list bytes := match o with RTransferEncoding t => [t] | _ => values_for (B "transfer-encoding") o end.
(* all others, in the order of the calls *)
Definition gives_headers (o : rop) : list (bytes * bytes) :=
  flat_map (fun h => if same_keyb (fst h) (B "content-type") || same_keyb (fst h) (B "transfer-encoding") then []
                     else map (fun v => (fst h, v)) (snd h)) (header_calls o).
Definition gives_cookies (o : rop) : list cookie := match o with RCookie cs => cs | _ => [] end.
Definition gives_att (o : rop) : list (option attachment) := match o with RAttachment a => [a] | RFile _ (FFile ev size) => [Some (Att ev size true 0)] | _ => [] end.
(* String, Bytes, JSON and errors replace the body, Write appends *)
Definition error_body (e : option goerr) : option bytes :=
  match e with Some EEOF => Some (B "EOF") | Some (EOther m) => Some m | _ => None end.
Definition replaces_body (o : rop) : option bytes :=
  match o with
  | RBody b => Some b
  | RError e _ => error_body e
  | RJson ps e => match error_body e with Some b => Some b | None => Some (concat ps) end
  | _ => None
  end.
Inductive BodyIs : list rop -> bytes -> Prop :=
| Bo_start : forall ws, Forall (fun o => replaces_body o = None) ws -> BodyIs ws (concat (map (fun o => match o with RWrite b => b | _ => [] end) ws))
| Bo_from : forall os o b ws, replaces_body o = Some b -> Forall (fun o => replaces_body o = None) ws ->
    BodyIs (os ++ o :: ws) (b ++ concat (map (fun o => match o with RWrite b => b | _ => [] end) ws)).
(* the two headers need a value *)
Definition GivesValue (o : rop) : Prop :=
  forall k, In (k, []) (header_calls o) -> same_key k (B "content-type") \/ same_key k (B "transfer-encoding") -> False.

(* the response these calls stand for *)
Record Stands (os : list rop) (f : fields) : Prop := {
  st_code : f_code f = last_given gives_code 200%N os;
  st_status : f_status f = last_given gives_status [] os;
  st_ctype : f_ctype f = last_given gives_ctype (B "text/html") os;
  st_te : f_te f = last_given gives_te [] os;
  st_headers : f_headers f = flat_map gives_headers os;
  st_body : BodyIs os (f_body f);
  st_cookies : f_cookies f = flat_map gives_cookies os;
  st_att : f_att f = last_given gives_att None os
}.
