(* router/inbuilt/predicates.go, resource.go: shorthands for routes, and resources. *)
From Verif Require Import M_Base M_Status M_Method M_Proto M_KeyValue M_Query M_Request M_Response M_Suit M_Path M_Radix M_Router M_Static.

(* the methods named after request methods, of Router and of Resource *)
Inductive shorthand := ShGet | ShHead | ShPost | ShPut | ShDelete | ShConnect | ShOptions | ShTrace | ShPatch.
Definition shorthand_name (s : shorthand) : bytes :=
  match s with
  | ShGet => B "Get" | ShHead => B "Head" | ShPost => B "Post" | ShPut => B "Put" | ShDelete => B "Delete"
  | ShConnect => B "Connect" | ShOptions => B "Options" | ShTrace => B "Trace" | ShPatch => B "Patch"
  end.

Section Resource.
Variable W : Type.
(* predicates.go:13-64: r.Get(path, handler, middlewares...) and the others.  They return the
   router itself. *)
Definition router_call (s : shorthand) (path : bytes) (h : handler W) (mws : list (middleware W)) : rop W :=
  match s with
  | ShGet => Route GET path h mws           (* 13-16 *)
  | ShHead => Route HEAD path h mws         (* 19-22 *)
  | ShPost => Route POST path h mws         (* 25-28 *)
  | ShPut => Route PUT path h mws           (* 31-34 *)
  | ShDelete => Route DELETE path h mws     (* 37-40 *)
  | ShConnect => Route CONNECT path h mws   (* 43-46 *)
  | ShOptions => Route OPTIONS path h mws   (* 49-52 *)
  | ShTrace => Route TRACE path h mws       (* 55-58 *)
  | ShPatch => Route PATCH path h mws       (* 61-64 *)
  end.

(* the calls on a Resource *)
Inductive rcall :=
| RcUse (mws : list (middleware W))
| RcCatch (prefix : bytes) (h : handler W) (mws : list (middleware W))
| RcStatic (prefix root : bytes) (pget : W -> pbuf) (pput : pbuf -> W -> W) (files : W -> bytes -> fields)
| RcRoute (m : method) (h : handler W) (mws : list (middleware W))
| RcBy (s : shorthand) (h : handler W) (mws : list (middleware W)).
(* resource.go:17-21: r.Resource(path) is a call of Group on r; the resource is the group
   created.  resource.go:25-102: the calls on it are calls on that group, which is returned;
   None: panic of Static. *)
Definition resource_new (path : bytes) : rop W := Group path.
Definition resource_call (c : rcall) : option (rop W) :=
  match c with
  | RcUse mws => Some (Use mws)                                                        (* 25-28 *)
  | RcCatch prefix h mws => Some (Catch prefix h mws)                                   (* 32-35 *)
  | RcStatic prefix root pget pput files => static_call prefix root pget pput files []  (* 39-42 *)
  | RcRoute m h mws => Some (Route m [] h mws)                                          (* 45-48 *)
  | RcBy s h mws => Some (router_call s [] h mws)                                       (* 51-102 *)
  end.
End Resource.
Arguments router_call {W}. Arguments RcUse {W}. Arguments RcCatch {W}. Arguments RcStatic {W}. Arguments RcRoute {W}. Arguments RcBy {W}.
Arguments resource_new {W}. Arguments resource_call {W}.
