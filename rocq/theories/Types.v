(** * Messages exchanged with the services, and the external world. *)

From Verif Require Export Strs.

(** ** Protobuf messages (proto/oidc/*/v1/*.proto, api/oidc/*/v1/*.pb.go) *)

(** proto/oidc/client/v1/client.proto, enum ClientType. *)
Inductive client_type := CtUnspecified | CtConfidential | CtCredentialed | CtPublic.

(** proto/oidc/client/v1/client.proto, message Client.  Fields that no modelled
    function reads (contacts, logo, TLS, ...) are left out. *)
Record client := mkClient {
  cl_id : string;
  cl_type : client_type;
  cl_redirect_uris : list string;
  cl_response_types : list string;
  cl_response_modes : list string;
  cl_grant_types : list string;
  cl_name : string;
  cl_jwks : string;
  cl_subject_type : string;
  cl_sector : string;
  cl_dpop_bound : bool
}.

(** proto/oidc/flow/v1/flow.proto, message AuthorizationRequest.  The fields that
    the services never read (display, max_age, ui_locales, ...) are carried as
    one opaque value [ar_other]. *)
Record authreq := mkAuthReq {
  ar_scope : string;
  ar_response_type : string;
  ar_client_id : string;
  ar_redirect_uri : string;
  ar_state : string;
  ar_response_mode : option string;
  ar_nonce : string;
  ar_prompt : option string;
  ar_request : option string;
  ar_request_uri : option string;
  ar_code_challenge : string;
  ar_code_challenge_method : string;
  ar_audience : string;
  ar_other : string
}.

(** req.Scope = v *)
Definition set_scope (r : authreq) (v : string) : authreq :=
  mkAuthReq v (ar_response_type r) (ar_client_id r) (ar_redirect_uri r) (ar_state r)
    (ar_response_mode r) (ar_nonce r) (ar_prompt r) (ar_request r) (ar_request_uri r)
    (ar_code_challenge r) (ar_code_challenge_method r) (ar_audience r) (ar_other r).

(** req.ResponseMode = types.StringRef(v) *)
Definition set_response_mode (r : authreq) (v : option string) : authreq :=
  mkAuthReq (ar_scope r) (ar_response_type r) (ar_client_id r) (ar_redirect_uri r)
    (ar_state r) v (ar_nonce r) (ar_prompt r) (ar_request r) (ar_request_uri r)
    (ar_code_challenge r) (ar_code_challenge_method r) (ar_audience r) (ar_other r).

(** proto/oidc/core/v1/error.proto, message Error; sdk/rfcerrors/builder.go:67-85.
    The human readable description is a function of the code for the errors
    built by the services and is left out here (see [Rfcerrors.v]). *)
Record oerror := mkErr { e_code : string; e_state : option string }.

(** proto/oidc/token/v1/token.proto *)
Inductive token_type := TtUnspecified | TtUnknown | TtAccess | TtRefresh | TtId | TtPhantom.
Inductive token_status := TsUnspecified | TsUnknown | TsActive | TsExpired | TsRevoked.

Record token_meta := mkMeta {
  m_issuer : string;
  m_subject : string;
  m_issued_at : N;
  m_not_before : N;
  m_expires_at : N;
  m_client_id : string;
  m_scope : string;
  m_audience : string
}.

(** Confirmation is the key thumbprint (message TokenConfirmation has the single
    field jkt); acr, auth_time, actors and the phantom value are never set by the
    modelled services and are left out. *)
Record token := mkToken {
  t_issuer : string;
  t_type : token_type;
  t_id : string;
  t_meta : option token_meta;
  t_status : token_status;
  t_value : string;
  t_cnf : option string
}.

Definition set_value (t : token) (v : string) : token :=
  mkToken (t_issuer t) (t_type t) (t_id t) (t_meta t) (t_status t) v (t_cnf t).
Definition set_status (t : token) (s : token_status) : token :=
  mkToken (t_issuer t) (t_type t) (t_id t) (t_meta t) s (t_value t) (t_cnf t).

(** proto/oidc/session/v1/session.proto *)
Record acsession := mkSess {
  as_issuer : string;
  as_subject : string;
  as_request : option authreq
}.

Inductive dev_status := DsUnspecified | DsUnknown | DsPending | DsConfirmation | DsValidated.

(** proto/oidc/flow/v1/flow_api.proto, message DeviceAuthorizationRequest. *)
Record dev_request := mkDevReq {
  dr_issuer : string;
  dr_client_id : string;
  dr_scope : option string;
  dr_audience : option string
}.

Record devsession := mkDev {
  ds_client : option client;
  ds_issuer : string;
  ds_expires_at : N;
  ds_request : option dev_request;
  ds_status : dev_status;
  ds_device_code : string;
  ds_subject : option string;
  ds_scope : option string;
  ds_audience : option string
}.

(** proto/oidc/flow/v1/token_grant.proto and the oneof of TokenRequest. *)
Inductive grant :=
| GNone
| GAuthorizationCode (code redirect_uri code_verifier : string)
| GClientCredentials
| GDeviceCode (device_code : string)
| GRefreshToken (refresh_token : string)
| GTokenExchange (subject_token subject_token_type : string).

(** proto/oidc/flow/v1/flow_api.proto, message TokenRequest; [tq_client] is only
    used for its id. *)
Record token_request := mkTokReq {
  tq_issuer : string;
  tq_client : option client;
  tq_grant_type : string;
  tq_scope : option string;
  tq_cnf : option string;
  tq_audience : option string;
  tq_grant : grant
}.

(** Message TokenResponse together with the Go error: [tr_err] is true when the
    Go function returned a non-nil error. *)
Record token_response := mkTokRes {
  tr_err : bool;
  tr_error : option oerror;
  tr_at : option token;
  tr_rt : option token;
  tr_idt : option token;
  tr_issuer : string;
  tr_issued_type : option string;
  tr_scope : option string
}.

(** Messages IntrospectRequest/RevokeRequest (same shape) and responses. *)
Record value_request := mkValReq {
  vq_issuer : string;
  vq_client : option client;
  vq_token : string
}.
Record introspect_response := mkIntro { ir_err : bool; ir_error : option oerror; ir_token : option token }.
Record revoke_response := mkRevoke { rr_err : bool; rr_error : option oerror }.

(** Messages AuthorizeRequest / AuthorizeResponse / RegistrationRequest / Response. *)
Record authorize_request := mkAuthzReq {
  zq_issuer : string;
  zq_subject : string;
  zq_request : option authreq
}.
Record authorize_response := mkAuthzRes {
  zr_err : bool;
  zr_error : option oerror;
  zr_code : string;
  zr_state : string;
  zr_redirect_uri : string;
  zr_client_id : string;
  zr_expires_in : N;
  zr_issuer : string;
  zr_response_mode : string
}.
Record registration_request := mkRegReq {
  gq_issuer : string;
  gq_client : option client;
  gq_request : option authreq
}.
Record registration_response := mkRegRes {
  gr_err : bool;
  gr_error : option oerror;
  gr_request_uri : string;
  gr_expires_in : N;
  gr_issuer : string
}.

(** Messages DeviceAuthorizationResponse / DeviceCodeValidationRequest / Response. *)
Record dev_response := mkDevRes {
  dv_err : bool;
  dv_error : option oerror;
  dv_device_code : string;
  dv_user_code : string;
  dv_expires_in : N;
  dv_interval : N;
  dv_issuer : string
}.
Record dev_validation_request := mkDevVal {
  vv_issuer : string;
  vv_user_code : string;
  vv_subject : string
}.
Record dev_validation_response := mkDevValRes { vr_err : bool; vr_error : option oerror }.

(** Messages AuthenticateRequest / AuthenticateResponse. *)
Record auth_request := mkAuthn { aq_type : option string; aq_assertion : option string }.
(** [aa_nil]: the response pointer itself is nil. *)
Record auth_response := mkAuthnRes {
  aa_nil : bool;
  aa_err : bool;
  aa_error : option oerror;
  aa_client : option client
}.

(** ** External functions

    Everything the code calls outside the repository and whose internals are not
    modelled is a field of [ext]; every theorem quantifies over all [ext], and
    any assumption on a field is an explicit hypothesis of that theorem. *)

(** One key of a JSON Web Key Set (go-jose JSONWebKey): "kid", "use", key material. *)
Record jwk := mkJwk { k_id : string; k_use : string; k_mat : string }.

(** What ParseSigned exposes of a compact JWS: the "typ" header, "kid" header
    (empty when absent) and the embedded "jwk" header. *)
Record jws := mkJws { j_typ : option string; j_kid : string; j_jwk : option jwk }.

(** The union of the claim structures decoded by the modelled code; an absent
    JSON member is the zero value, as encoding/json leaves it. *)
Record claims := mkClaims {
  c_iss : string;
  c_sub : string;
  c_aud : string;
  c_jti : string;
  c_exp : N;
  c_nbf : N;
  c_iat : N;
  c_cnf_jwk : option (option jwk);
  c_htm : string;
  c_htu : string;
  c_ath : option string
}.

(** Which Go structure the payload is decoded into. *)
Inductive claims_kind := KAssertion | KAttestation | KPop | KDpop.

Record ext := mkExt {
  (** orbit representative under unicode.SimpleFold *)
  x_fold : N -> N;
  (** crypto/sha256.Sum256 *)
  x_sha256 : string -> string;
  (** blake2b-256 keyed hash: key, message *)
  x_blake : string -> string -> string;
  (** url.ParseRequestURI succeeds *)
  x_request_uri : string -> bool;
  (** url.ParseRequestURI(s).String() *)
  x_url_string : string -> string;
  (** generator.RequestURI.Validate returns nil *)
  x_uri_valid : string -> bool;
  (** strings.ToUpper *)
  x_upper : string -> string;
  (** jose/jwt.ParseSigned with the algorithm list of the verifier *)
  x_parse : string -> option jws;
  (** jose.ParseSigned succeeds with the algorithm list of client authentication *)
  x_parse_jose : string -> bool;
  (** jose/jwt.ParseSigned succeeds with that list *)
  x_parse_pop : string -> bool;
  (** signature of the compact JWS verifies under this key *)
  x_verify : jwk -> string -> bool;
  (** payload decodes into the claim structure *)
  x_payload : claims_kind -> string -> option claims;
  (** json.Unmarshal of a JWKS *)
  x_jwks : string -> option (list jwk);
  (** JSONWebKey.Thumbprint(SHA256) *)
  x_thumb : jwk -> option string
}.
