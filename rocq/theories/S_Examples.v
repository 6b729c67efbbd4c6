(* Specification for C94: what the example applications answer, as text. *)
From Verif Require Import M_Base M_Status M_Method M_Proto M_KeyValue M_Request M_Parser M_Response M_Serializer M_Suit M_Path M_Router M_Escape M_Examples
  S_KeyValue S_Head S_Response S_Conn.

Definition lines (l : list bytes) : bytes := concat (map (fun s => s ++ CRLF) l).
(* a response: the status line, fields, and the text of the body, left out for HEAD; the only
   default header of the default configuration comes behind the fields of the handler *)
Definition page (p : proto) (m : method) (status : bytes) (fields : list bytes) (body : bytes) : bytes :=
  lines ([version_of p ++ B " " ++ status] ++ fields ++
         [B "Accept-Encodings: identity"; B "Content-Type: text/html"; B "Content-Length: " ++ itoa (len body); []]) ++
  (match m with HEAD => [] | _ => body end).
(* a site that answers by the version, the method, the path and the header fields *)
Definition answers := proto -> method -> bytes -> list pair_t -> bytes.
Definition answer_of (a : answers) (h : head) : bytes := a (h_proto h) (h_method h) (h_decoded h) (field_pairs (h_lines h)).
(* does the connection stay open behind a request? *)
Definition keeps_open (h : head) : bool :=
  let c := or_default (last_value (B "connection") (h_lines h)) [] in
  match h_proto h with
  | HTTP10 => same_keyb c (B "keep-alive")
  | HTTP11 => negb (same_keyb c (B "close"))
  | _ => false
  end.
(* the requests that get an answer: all up to the first that closes the connection *)
Fixpoint answered (reqs : list req) : list req :=
  match reqs with
  | [] => []
  | q :: reqs' => q :: if keeps_open (q_head q) then answered reqs' else []
  end.
Definition all_open (reqs : list req) : bool := forallb (fun q => keeps_open (q_head q)) reqs.

Definition not_found (p : proto) (m : method) : bytes := page p m (B "404 Not Found") [] [].
Definition only (allow : bytes) (p : proto) (m : method) : bytes := page p m (B "405 Method Not Allowed") [B "Allow: " ++ allow] [].

(* helloworld *)
Definition helloworld_answers : answers := fun p m path _ =>
  if beqb path (B "/") then
    match m with
    | GET | HEAD => page p m (B "200 OK") [B "Hello: world"] (B "<h1>Hello, world!</h1>")
    | _ => only (B "GET") p m
    end
  else not_found p m.
(* helloworld_norouter *)
Definition norouter_answers : answers := fun p m _ _ =>
  page p m (B "200 OK") [B "Hello: world"] (B "<h1>How are you doing?</h1>").
(* dynroute: [/hello/name] and slashes behind *)
Definition NameIn (path name : bytes) : Prop :=
  name <> [] /\ ~ In SLASH name /\ exists n, path = B "/hello/" ++ name ++ repeat SLASH n.
Inductive DynrouteAnswer (p : proto) (m : method) (path : bytes) : bytes -> Prop :=
| Dy_name : forall name, NameIn path name -> m = GET \/ m = HEAD ->
    DynrouteAnswer p m path (page p m (B "200 OK") [] (B "your world-name is " ++ name))
| Dy_method : forall name, NameIn path name -> m <> GET -> m <> HEAD -> DynrouteAnswer p m path (only (B "GET") p m)
(* the defect of C30 *)
| Dy_root : path = B "/" -> DynrouteAnswer p m path (only [] p m)
| Dy_none : path <> B "/" -> (forall name, ~ NameIn path name) -> DynrouteAnswer p m path (not_found p m).
(* middlewares: the answer, and the lines of the log *)
Definition middlewares_answers : answers := fun p m path _ =>
  if beqb (normalize path) (B "/api/v1/hello") then
    match m with GET | HEAD => page p m (B "200 OK") [] [] | _ => only (B "GET") p m end
  else not_found p m.
Definition middlewares_log (m : method) (path : bytes) : list bytes :=
  if beqb (normalize path) (B "/api/v1/hello") then
    match m with
    | GET | HEAD => [B "running middleware before handler"; B "running second middleware before first one"; B "running handler";
                     B "running second middleware after first one"; B "running middleware after handler"]
    | _ => []
    end
  else [].
(* combined: the requests not answered with files *)
Definition AboutFiles (path : bytes) : Prop := path = B "/" \/ path = B "/favicon.ico" \/ has_prefix (normalize path) (B "/static") = true.
Definition combined_status (m : method) (path : bytes) (hs : list pair_t) : N :=
  let get c := match m with GET | HEAD => c | _ => 405%N end in
  if beqb path (B "/stress") then get 500%N
  else if beqb path (B "/shutdown") then (match m with POST => 418%N | _ => 405%N end)
  else if beqb path (B "/hello/world") then get 200%N
  else if beqb path (B "/hello/easter") then get (if existsb (fun e => same_keyb (fst e) (B "easter")) hs then 418%N else 200%N)
  else 404%N.
Definition combined_answers : answers := fun p m path hs =>
  let path := normalize path in
  match combined_status m path hs with
  | 500%N => page p m (B "500 Internal Server Error") [] []
  | 405%N => only (if beqb path (B "/shutdown") then B "POST" else B "GET") p m
  | 418%N => if beqb path (B "/shutdown") then page p m (B "418 I'm a teapot") [] []
             else page p m (B "418 I'm a teapot") [B "Easter: Egg"] (B "You have discovered an easter egg! Congratulations!")
  | 200%N => page p m (B "200 OK") [] (if beqb path (B "/hello/world") then B "<h1>Hello, world!</h1>" else B "Pretty ordinary page, isn't it?")
  | _ => not_found p m
  end.
Definition combined_log (m : method) (path : bytes) (hs : list pair_t) : bytes :=
  method_string m ++ B " " ++ escape (normalize path) ++ B " " ++ itoa_N (combined_status m (normalize path) hs).
