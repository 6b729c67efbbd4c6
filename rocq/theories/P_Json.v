(* Property C80: requests decoded with Request.JSON. *)
From Verif Require Import M_Base M_Status M_Method M_Proto M_KeyValue M_Query M_Request M_Parser M_Client M_Body
  M_Response M_Serializer M_Suit M_Json S_KeyValue S_Chunk S_Head S_Parser S_Body S_Response S_Conn S_Json L_Conn3 L_ConnProps L_Json.

(* C80: without a content type, and with exactly "application/json", the decoder gets the body,
   all of it and nothing else, and the handler goes on with what the decoder says. *)
Theorem C80_body_partial : forall M E W (decode : M -> bytes -> M * option E) more m (k : M -> option (jerr E) -> hprog W) r text o r' v',
  (r_content_type r = [] \/ r_content_type r = B "application/json") ->
  HSteps more (json decode m k) r (fresh_view text) o r' v' <->
  HSteps more (k (fst (decode m text)) (option_map JDecode (snd (decode m text)))) r (View [] true [] false (Some text)) o r' v'.
Proof. exact json_accepts. Qed.
Print Assumptions C80_body_partial.
(* C80: and so does every later call during this request *)
Theorem C80_again_partial : forall M E W (decode : M -> bytes -> M * option E) more m (k : M -> option (jerr E) -> hprog W) r st se text o r' v',
  (r_content_type r = [] \/ r_content_type r = B "application/json") ->
  HSteps more (json decode m k) r (View [] true st se (Some text)) o r' v' <->
  HSteps more (k (fst (decode m text)) (option_map JDecode (snd (decode m text)))) r (View [] true st se (Some text)) o r' v'.
Proof. exact json_again. Qed.
Print Assumptions C80_again_partial.
(* C80: with any other content type the model and the body are left alone *)
Theorem C80_other_type_partial : forall M E W (decode : M -> bytes -> M * option E) more m (k : M -> option (jerr E) -> hprog W) r v o r' v',
  r_content_type r <> [] -> r_content_type r <> B "application/json" ->
  HSteps more (json decode m k) r v o r' v' <-> HSteps more (k m (Some (JMedia ErrUnsupportedMediaType))) r v o r' v'.
Proof. exact json_refuses. Qed.
Print Assumptions C80_other_type_partial.

(* C80: on a whole connection: a server that decodes every request learns, request by request and
   in order, what the decoder makes of each body, whatever the segmentation, fixed length or
   chunked, and responds to each *)
Theorem C80_server_partial : forall CS cparse encoded fresh inside,
  DecoderOk CS cparse encoded fresh inside -> forall max, (max < two64)%Z ->
  forall cfg umax kmax vmax fbs defs, distinct_names defs ->
  forall M E decode answer (m : M) on_error reqs past (st : conn CS (list (M * option (jerr E)))) tail,
  (forall m' e, Sendable fbs (answer m' e)) ->
  Between umax kmax vmax fbs defs fresh past st ->
  Forall (GoodRequest encoded (cfg_limits cfg umax kmax vmax) max) reqs ->
  Unfinished (cfg_limits cfg umax kmax vmax) tail ->
  stream (k_client st) = concat (map wire reqs) ++ tail ->
  exists n outs closed served left st1,
    Conversation defs (json_server M E decode answer m) reqs (k_world st) past outs (k_world st1) closed /\
    reqs = served ++ left /\ (closed = None -> left = []) /\
    k_world st1 = k_world st ++ map (fun q => json_verdict decode m (q_head q) (q_text q)) served /\
    cl_out (k_client st1) = cl_out (k_client st) ++ outs /\
    forall fuel, (n <= fuel)%nat ->
      serve cparse max cfg (json_server M E decode answer m) on_error fuel st =
      close_with cparse max on_error (match closed with None => EndRead | Some _ => EndWrite end) st1.
Proof. exact json_served. Qed.
Print Assumptions C80_server_partial.

(* Missing: content types that say JSON otherwise are refused, with parameters as well as in
   another case *)
Theorem C80_refuted : exists ct1 ct2, ct1 = B "application/json; charset=utf-8" /\ ct2 = B "Application/JSON" /\ JsonType ct1 /\ JsonType ct2 /\
  forall M E W (decode : M -> bytes -> M * option E) m (k : M -> option (jerr E) -> hprog W) r ct, ct = ct1 \/ ct = ct2 ->
  forall more v o r' v', HSteps more (json decode m k) (set_content_type ct r) v o r' v' <->
    HSteps more (k m (Some (JMedia ErrUnsupportedMediaType))) (set_content_type ct r) v o r' v'.
Proof.
  eexists _, _. split; [reflexivity|]. split; [reflexivity|]. split; [|split].
  - exists (B "application/json"), (B "; charset=utf-8"). split; [reflexivity|]. split; [reflexivity|].
    right. exists [], (B " charset=utf-8"). split; [reflexivity|]. constructor.
  - exists (B "Application/JSON"), []. split; [reflexivity|]. split; [reflexivity|]. left. reflexivity.
  - intros M E W decode m k r ct H more v o r' v'. apply json_refuses; destruct H as [-> | ->]; discriminate.
Qed.
Print Assumptions C80_refuted.

(* a decoder that understands one digit *)
Definition ex_decode (m : nat) (d : bytes) : nat * option bytes :=
  match d with [c] => (N.to_nat (Byte.to_N c) - 48, None)%nat | _ => (m, Some (B "no digit")) end.
Definition ex_json (w : log) (r : request) : hprog log :=
  json ex_decode 9%nat (fun m e =>
    json ex_decode 8%nat (fun m' e' =>
      let says (m : nat) (e : option (jerr bytes)) := match e with
        | None => [Byte.x64; match Byte.of_N (N.of_nat m + 48) with Some c => c | None => x00 end]
        | Some (JMedia _) => B "media" | Some (JBody _) => B "body" | Some (JDecode t) => t end in
      HRet (Some (set_rbody (says m e ++ B "," ++ says m' e') new_response)) w)).
Example C80_case :
  answers (ex_serve ex_json [crlf_lines [B "POST /a HTTP/1.1"; B "Content-Length: 1"; []] ++ B "7POST /b HTT";
    B "P/1.1" ++ CRLF ++ crlf_lines [B "Content-type: application/json"; B "content-length: 2"; []] ++ B "77" ++
    crlf_lines [B "POST /c HTTP/1.1"; B "Content-type: text/plain"; B "content-length: 1"; []] ++ B "7"]) =
  map (ok_text (B "HTTP/1.1")) [B "d7,d7"; B "no digit,no digit"; B "media,media"].
Proof. vm_compute. reflexivity. Qed.
