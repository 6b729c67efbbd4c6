(* Specification: what the configured limits promise about what a request can hold. *)
From Verif Require Import M_Base M_KeyValue M_Query M_Request S_Head.

Definition sum_len (ls : list bytes) : Z := fold_right (fun l a => (len l + a)%Z) 0%Z ls.

(* nothing a request holds is larger than the limits *)
Record Within (lim : limits) (r : request) : Prop := {
  wi_path : (len (r_path r) <= lim_line lim)%Z;
  wi_query : (len (q_raw (r_query r)) <= lim_line lim)%Z;
  wi_count : (Z.of_nat (List.length (kv_pairs (r_headers r))) <= lim_headers lim)%Z;
  wi_names : (sum_len (map fst (kv_pairs (r_headers r))) <= lim_keys lim)%Z;
  wi_values : (sum_len (map snd (kv_pairs (r_headers r))) <= lim_values lim)%Z;
  wi_each : Forall (fun kv => len (snd kv) <= lim_value lim)%Z (kv_pairs (r_headers r));
  wi_transfer : (Z.of_nat (List.length (enc_transfer (r_encoding r))) <= lim_tokens lim)%Z;
  wi_content : (Z.of_nat (List.length (enc_content (r_encoding r))) <= lim_tokens lim)%Z
}.
