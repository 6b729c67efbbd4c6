(* http/request.go: Request.JSON.  The decoder of json-iterator is external: an arbitrary function
   of the model given and of the bytes, to the model afterwards and an error. *)
From Verif Require Import M_Base M_Status M_Method M_Proto M_KeyValue M_Query M_Request M_Parser M_Client M_Body
  M_Response M_Serializer M_Suit.

(* http/mime/common.go:7  JSON *)
Definition mime_json : bytes := B "application/json".
(* the errors of request.go:103, 108 and 116 *)
Inductive jerr (E : Type) := JMedia (e : http_error) | JBody (e : berr) | JDecode (e : E).
Arguments JMedia {E}. Arguments JBody {E}. Arguments JDecode {E}.
(* request.go:101-117  JSON, called by a handler that goes on with k.  Bytes that panics or does
   not return ends the handler (M_Suit.stops), so that the last branch is never taken. *)
Definition json {M E W} (decode : M -> bytes -> M * option E) (model : M) (k : M -> option (jerr E) -> hprog W) : hprog W :=
  HLook (fun r =>
    if (len (r_content_type r) >? 0)%Z && negb (beqb (r_content_type r) mime_json)
    then k model (Some (JMedia ErrUnsupportedMediaType))
    else HBody OBytes (fun x =>
      match x with
      | RBytes (BROk data) => let '(m, e) := decode model data in k m (option_map JDecode e)
      | RBytes (BRErr e) => k model (Some (JBody e))
      | _ => k model (Some (JBody BNet))
      end)).
