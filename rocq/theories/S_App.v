(* Specification of listeners and of the encryption marks. *)
From Verif Require Import M_Base M_Status M_Request M_Suit M_App.

(* the handler a source asks for *)
Definition wanted (s : source) : lhandler := match so_handler s with Some h => h | None => Http enc_plain end.
(* every connection of every listener gets the handler its source asks for *)
Definition OwnHandlers {Sock} (srcs : list source) (b : bound Sock) : Prop :=
  forall i s, nth_error srcs i = Some s -> conn_handler b i = Some (wanted s).

(* an application that also notes the mark of every request it gets; f' undoes f *)
Fixpoint hmap {V W} (f : V -> W) (f' : W -> V) (p : hprog V) : hprog W :=
  match p with
  | HRet resp w => HRet resp (f w)
  | HBody op k => HBody op (fun o => hmap f f' (k o))
  | HUpdate g k => HUpdate g (hmap f f' k)
  | HHijack k => HHijack (fun e => hmap f f' (k e))
  | HConnRead k => HConnRead (fun d => hmap f f' (k d))
  | HConnWrite d k => HConnWrite d (fun ok => hmap f f' (k ok))
  | HCrash => HCrash
  | HTry p q k => HTry (hmap f f' p) (hmap f f' q) (fun resp w => hmap f f' (k resp (f' w)))
  | HLook k => HLook (fun r => hmap f f' (k r))
  end.
Definition noting {W} (h : W -> request -> hprog W) (w : W * list enc_token) (r : request) : hprog (W * list enc_token) :=
  hmap (fun w' => (w', snd w ++ [env_encryption (r_env r)])) fst (h (fst w) r).
Definition passing {W} (h : W -> request -> http_error -> hprog W) (w : W * list enc_token) (r : request) (e : http_error) : hprog (W * list enc_token) :=
  hmap (fun w' => (w', snd w)) fst (h (fst w) r e).
