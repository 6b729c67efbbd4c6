(* Specification vocabulary for the request head parser. *)
From Verif Require Import M_Base M_Request M_Parser S_Head.

(* The limits a parser works with: the header settings and the maxima of its buffers. *)
Definition cfg_limits (cfg : hcfg) (umax kmax vmax : Z) : limits :=
  Limits umax (c_max_headers cfg) kmax vmax (c_max_value cfg) (c_max_enc_tokens cfg).

(* A parser waiting for the first byte of a request: a new one, or one that has completed a
   request. *)
Definition Ready (umax kmax vmax : Z) (p : parser) : Prop :=
  p_state p = eMethod /\ p_start p = Buffer [] [] umax /\ p_key p = Buffer [] [] kmax /\
  p_val p = Buffer [] [] vmax /\ p_hnum p = 0%Z /\ p_clen p = 0%Z.

(* all bytes the parser itself holds on to *)
Definition held (b : buffer) : Z := (len (b_done b) + len (b_seg b))%Z.

(* the parser after a call of Parse, if it returned *)
Definition parser_after (r : pres) : option parser :=
  match r with
  | RPending p => Some p | RDone p _ => Some p | RErr p _ => Some p
  | RPanic => None | RStuck => None
  end.
