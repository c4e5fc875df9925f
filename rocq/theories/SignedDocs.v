(** * The documents that the SDK signs

    The generators of sdk/token, the prover of sdk/dpop and the encoder of sdk/jarm hand
    structures to a serializer; here are the JSON documents that those become
    (encoding/json: a member marked omitempty is left out when it is zero). *)

From Verif Require Export Jarm JsonReq.

Definition jdoc := list (string * json).

Definition jtext (name s : string) : jdoc := [(name, JsStr s)].
Definition jnumber (name : string) (n : N) : jdoc := [(name, JsNum (decimal n))].
(** omitempty *)
Definition jtext_opt (name s : string) : jdoc := if is_empty s then [] else jtext name s.
Definition jnumber_opt (name : string) (n : N) : jdoc := if (n =? 0)%N then [] else jnumber name n.

(** sdk/dpop/claims.go:20-26 proofClaims *)
Definition proof_doc (c : claims) : jdoc :=
  (jtext "jti" (c_jti c) ++ jtext "htm" (c_htm c) ++ jtext "htu" (c_htu c) ++ jnumber "iat" (c_iat c) ++
   match c_ath c with Some a => jtext "ath" a | None => [] end)%list.

(** sdk/jarm/decoder.go:33-42 responseClaims *)
Definition response_doc (c : jarm_claims) : jdoc :=
  (jtext_opt "iss" (jm_iss c) ++ jtext_opt "aud" (jm_aud c) ++ jnumber_opt "exp" (jm_exp c) ++ jtext_opt "code" (jm_code c) ++
   jtext_opt "state" (jm_state c) ++ jtext_opt "error" (jm_error c) ++ jtext_opt "error_description" (jm_description c))%list.

(** sdk/token/client_assertion.go:68-76 *)
Definition assertion_doc (c : claims) : jdoc :=
  (jtext_opt "iss" (c_iss c) ++ jtext_opt "sub" (c_sub c) ++ jtext_opt "aud" (c_aud c) ++ jnumber_opt "exp" (c_exp c) ++
   jnumber_opt "nbf" (c_nbf c) ++ jnumber_opt "iat" (c_iat c) ++ jtext_opt "jti" (c_jti c))%list.

(** sdk/token/access_token.go:67-78 and refresh_token.go:67-78; the confirmation is a TokenConfirmation
    (proto/oidc/token/v1/token.proto:104-106): an object with the one member jkt. *)
Definition token_doc (c : jwt_claims) : jdoc :=
  (jtext_opt "iss" (jc_iss c) ++ jtext_opt "sub" (jc_sub c) ++ jtext_opt "aud" (jc_aud c) ++ jnumber_opt "exp" (jc_exp c) ++
   jnumber_opt "nbf" (jc_nbf c) ++ jnumber_opt "iat" (jc_iat c) ++ jtext_opt "jti" (jc_jti c) ++
   jtext_opt "client_id" (jc_client_id c) ++ jtext_opt "scope" (jc_scope c) ++
   match jc_cnf c with Some j => [("cnf", JsObj (if is_empty j then [] else ["jkt"%string]))] | None => [] end)%list.

(** sdk/token/introspection.go:57-76: a map, whose members are all written. *)
Definition json_of (v : jval) : json :=
  match v with JBool b => JsBool b | JStr s => JsStr s | JNum n => JsNum (decimal n) | JObj o => JsObj (map fst o) end.
Definition map_doc (d : doc) : jdoc := map (fun m => (fst m, json_of (snd m))) d.
