(** * The attestation server and the attested client of the examples *)

From Verif Require Export ClientHttp.

(** attestationserver/main.go:17-20: the body of a request, once decoded; the key is absent or
    null when [None]. *)
Record attestation_data := mkAttData { ad_client_id : string; ad_public_key : option jwk }.

(** What the attestation server sends back. *)
Inductive sign_answer := SignError | SignBody (body : string).

(** attestationserver/main.go:22-69 signHandler.  [body] is [None] when the JSON cannot be decoded
    or has unknown members.  [public] is JSONWebKey.Public, which dereferences its receiver.  [sign]
    signs with EdDSA; the error of Serialize is dropped (line 64), so that the body is empty.
    jose.NewSigner does not fail for an Ed25519 key. *)
Definition sign_handler (public : jwk -> jwk) (sign : claims -> option string) (body : option attestation_data) (now : N)
  : outcome sign_answer :=
  match body with
  | None => Done SignError
  | Some d =>
      match ad_public_key d with
      | None => Crashed
      | Some k =>
          Done (SignBody
            (match sign (mkClaims "urn:solid:attestation-server" (ad_client_id d) "" "" (unix now + 3600) (unix now - 1) 0
                           (Some (Some (public k))) "" "" None) with
             | Some raw => raw
             | None => ""
             end))
      end
  end.

(** attestationclient/main.go:33-68 getAttestation, from the answer of the server on; the limit on
    the size of the body is left out. *)
Definition get_attestation (o : outcome sign_answer) : option string :=
  match o with Done (SignBody b) => Some b | _ => None end.

(** attestationclient/main.go:70-97 computeClientPOP; [jti] is the random id. *)
Definition client_pop (sign : claims -> option string) (jti : string) (now : N) : option string :=
  sign (mkClaims "attestation-client" "" "http://localhost:8085" jti (unix now + 30) (unix now - 1) 0 None "" "" None).

(** attestationclient/main.go:99-116 getToken: the request; 172: the two tokens are joined. *)
Definition attested_request (tls : bool) (host path attestation pop : string) : http_request :=
  sdk_post tls host path
    [("grant_type", "client_credentials"); ("client_id", "attestation-client");
     ("client_assertion", (attestation ++ "~" ++ pop)%string); ("client_assertion_type", assertion_attestation)].

(** attestationclient/main.go:119-141 getToken: the access token in the answer; [None] is an error. *)
Definition attested_result (resp : http_response) : option string :=
  match resp with HToken access _ _ _ _ => Some access | _ => None end.
