(* http/cookie/jar.go: the Cookie request header. *)
From Verif Require Import M_Base M_KeyValue.

(* jar.go:59-65  stripSpace *)
Definition strip_space (s : bytes) : bytes := match s with x20 :: r => r | _ => s end.

(* jar.go:24-57  Parse: the pairs added and whether ErrBadCookie was returned (true).  Pairs
   added before the error stay.  Each iteration shortens data, so its length bounds them. *)
Fixpoint cookie_parse_aux (fuel : nat) (data : bytes) (acc : list pair_t) : list pair_t * bool :=
  match fuel, data with
  | O, _ => (acc, true)
  | _, [] => (acc, false)
  | S f, _ =>
      match cut data x3d with
      | None => (acc, true)
      | Some (key, d) =>
          match key with
          | [] => (acc, true)
          | _ => match cut d x3b with
                 | Some (v, d') => cookie_parse_aux f (strip_space d') (acc ++ [(key, v)])
                 | None => cookie_parse_aux f [] (acc ++ [(key, d)])
                 end
          end
      end
  end.
Definition cookie_parse (data : bytes) : list pair_t * bool := cookie_parse_aux (S (List.length data)) data [].

(* http/request.go:121-140  Request.Cookies: all Cookie headers into the cleared jar; None
   when one of them is malformed. *)
Fixpoint cookies_of_values (vs : list bytes) (acc : list pair_t) : option (list pair_t) :=
  match vs with
  | [] => Some acc
  | v :: vs' => match cookie_parse v with
                | (ps, false) => cookies_of_values vs' (acc ++ ps)
                | (_, true) => None
                end
  end.
Definition request_cookies (headers : storage) : option (list pair_t) :=
  cookies_of_values (match snd (kv_values_of headers (B "cookie")) with Some l => l | None => [] end) [].
