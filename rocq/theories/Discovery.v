(** * Discovery: what the authorization server announces, and how the SDK client uses it *)

From Verif Require Export ClientHttp.

(** api/oidc/discovery/v1, ServerMetadata: the URLs in it and signed_metadata; the lists of
    algorithms and methods, which no code reads, are in Announced.v. *)
Record server_metadata := mkSm {
  sm_issuer : string; sm_jwks : string; sm_authorize : string; sm_token : string; sm_introspect : string;
  sm_revoke : string; sm_device : string; sm_par : string; sm_signed : string
}.

(** examples/authorizationserver/handlers/metadata.go:33-80 and 94; [signed] is modelled in
    Metadata.v. *)
Definition announced (issuer signed : string) : server_metadata :=
  mkSm issuer (issuer ++ "/keys") (issuer ++ "/authorize") (issuer ++ "/token") (issuer ++ "/token/introspect")
    (issuer ++ "/token/revoke") (issuer ++ "/device/authorize") (issuer ++ "/par") signed.

(** main.go:62-71: which handler gets a path. *)
Inductive site := SMetadata | SKeys | SEndpoint (e : endpoint).
Definition mux (path : string) : option site :=
  if String.eqb path "/.well-known/oauth-authorization-server" then Some SMetadata
  else if String.eqb path "/.well-known/openid-configuration" then Some SMetadata
  else if String.eqb path "/keys" then Some SKeys
  else if String.eqb path "/par" then Some (SEndpoint EPar)
  else if String.eqb path "/authorize" then Some (SEndpoint EAuthorize)
  else if String.eqb path "/token" then Some (SEndpoint EToken)
  else if String.eqb path "/token/introspect" then Some (SEndpoint EIntrospect)
  else if String.eqb path "/token/revoke" then Some (SEndpoint ERevoke)
  else if String.eqb path "/device/authorize" then Some (SEndpoint EDeviceAuthorize)
  else if String.eqb path "/device" then Some (SEndpoint EDevice)
  else None.

(** The answer to the metadata request: an error, another status than 200 or a document that
    cannot be decoded; the JSON value null, which leaves the pointer nil; a document. *)
Inductive metadata_answer := MetaFails | MetaNull | MetaDoc (d : server_metadata).

Record sdk_client := mkSdk { sdk_issuer : string; sdk_metadata : server_metadata; sdk_keys : client_state }.

(** client/http.go:44-77 HTTP.  [meta] and [keys] are the network: what a GET request to this URL
    would bring.  With a nil pointer PublicKeys panics (http.go:438, c.serverMetadata.JwksUri).  A
    status other than 200 wraps a nil error, which is an error all the same. *)
Definition new_client (meta : string -> metadata_answer) (keys : string -> keys_call) (issuer : string)
  : outcome (option sdk_client) :=
  match meta (issuer ++ "/.well-known/oauth-authorization-server")%string with
  | MetaFails => Done None
  | MetaNull => Crashed
  | MetaDoc d =>
      match public_keys fresh_client (keys (sm_jwks d)) with
      | (st, KeysOk _ _, _) => Done (Some (mkSdk issuer d st))
      | (_, KeysErr, _) => Done None
      | (_, KeysPanic, _) => Crashed
      end
  end.

(** http.go:319-337 ClientCredentials and 369-388 Introspect: the URL that the request goes to. *)
Definition credentials_url (c : sdk_client) : string := sm_token (sdk_metadata c).
Definition introspection_url (c : sdk_client) : string := sm_introspect (sdk_metadata c).
(** http.go:114-121: whom the assertion is for. *)
Definition assertion_audience (c : sdk_client) : string := sdk_issuer c.
