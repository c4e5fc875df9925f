(** * Vocabulary for the statements about what the metadata announces *)

From Verif Require Export SpecAttest Announced.

(** [alg] reads the algorithm in the header of a compact JWS.  The verifiers of proofs (main.go:57)
    and of signed requests (handlers/par.go:86, handlers/authorization.go:95) are given ES384 only. *)
Definition parses_es384_only (E : ext) (alg : string -> string) : Prop :=
  forall raw t, x_parse E raw = Some t -> alg raw = "ES384"%string.

(** How a request to the token, introspection, revocation, pushed request or device authorization
    endpoint authenticates its client; "none" is the name that OpenID Connect Dynamic Client
    Registration gives to naming the client only. *)
Definition auth_method (r : http_request) : option string :=
  if negb (String.eqb (query_get r "client_id") "") then Some "none"%string
  else if String.eqb (post_value r "client_assertion_type") "urn:ietf:params:oauth:client-assertion-type:jwt-bearer"
  then Some "private_key_jwt"%string
  else if String.eqb (post_value r "client_assertion_type") "urn:ietf:params:oauth:client-assertion-type:jwt-client-attestation"
  then Some "attest_jwt_client_auth"%string
  else None.

(** The response is not an error. *)
Definition fulfilled (resp : http_response) : Prop :=
  match resp with HError _ _ | HText _ => False | _ => True end.
