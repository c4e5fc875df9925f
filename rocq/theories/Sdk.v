(** * sdk/pkce, sdk/generator, sdk/pairwise and sdk/rfcerrors *)

From Verif Require Import Strs Base64 Compare.

(** ** sdk/pkce/verifier.go *)

(** verifier.go:34-50 CodeVerifier: [random] is what crypto/rand.Read gave for the
    96 bytes of verifier.go:30, None when it failed; [sha] is SHA-256. *)
Definition code_verifier_len : nat := 96.

Definition code_verifier (sha : string -> string) (random : option string)
  : option (string * string) :=
  match random with
  | None => None
  | Some r => let verifier := b64url r in Some (verifier, b64url (sha verifier))
  end.

(** verifier.go:53-78 Validate; None is an error. *)
Definition pkce_validate (challenge verifier : string) : option bool :=
  if is_empty challenge then None
  else if is_empty verifier then None
  else
    match b64url_decode challenge, b64url_decode verifier with
    | Some ch, Some ver => Some (secure_compare ch ver)
    | _, _ => None
    end.

(** ** sdk/generator *)

(** github.com/dchest/uniuri StdChars *)
Definition std_chars : string :=
  "ABCDEFGHIJKLMNOPQRSTUVWXYZabcdefghijklmnopqrstuvwxyz0123456789".

(** device_user_code.go:36-40 *)
Definition alpha_charset : string := "BCDFGHJKLMNPQRSTVWXZ".
Definition num_charset : string := "0123456789".

Section Generators.
(** [draw n charset]: uniuri.NewLenChars(n, charset) *)
Context (draw : nat -> string -> string).

(** authorization_code.go:42-45 *)
Definition generate_authorization_code : string := draw 32 std_chars.
(** device_code.go:42-45 *)
Definition generate_device_code : string := draw 32 std_chars.
(** client.go:40-43 *)
Definition generate_client_id : string := draw 16 std_chars.
(** request_uri.go:45-48 *)
Definition generate_request_uri : string := draw 32 std_chars.

(** device_user_code.go:51-54: code[:4] and code[4:] of a string of 8 *)
Definition generate_alpha_user_code : string :=
  let code := draw 8 alpha_charset in
  (substring 0 4 code ++ "-" ++ substring 4 4 code)%string.

(** device_user_code.go:65-68: code[:3], code[3:6] and code[6:] of a string of 9 *)
Definition generate_num_user_code : string :=
  let code := draw 9 num_charset in
  (substring 0 3 code ++ "-" ++ substring 3 3 code ++ "-" ++ substring 6 3 code)%string.
End Generators.

(** authorization_code.go:47-58 and device_code.go:47-58; true is the nil error *)
Definition validate_code (s : string) : bool := Nat.eqb (String.length (trim_space s)) 32.

(** request_uri.go:34: the regular expression `urn:solid:[A-Za-z0-9]{32}`, not
    anchored.  The pattern is ASCII, so matching bytes is matching runes. *)
Definition alnum_char (a : ascii) : bool :=
  in_range (byte a) 65 90 || in_range (byte a) 97 122 || in_range (byte a) 48 57.

Fixpoint starts_alnum (n : nat) (s : string) : bool :=
  match n, s with
  | O, _ => true
  | S n', String a r => alnum_char a && starts_alnum n' r
  | S _, EmptyString => false
  end.

Fixpoint starts_pattern (lit s : string) (n : nat) : bool :=
  match lit, s with
  | EmptyString, _ => starts_alnum n s
  | String a l, String b r => Ascii.eqb a b && starts_pattern l r n
  | String _ _, EmptyString => false
  end.

Fixpoint request_uri_matches (s : string) : bool :=
  starts_pattern "urn:solid:" s 32
  || match s with EmptyString => false | String _ r => request_uri_matches r end.

(** request_uri.go:50-61 *)
Definition validate_request_uri (s : string) : bool := request_uri_matches (trim_space s).

(** ** sdk/pairwise/hash.go:45-72, Encode.  [blake key m] is keyed BLAKE2b-256; New256
    fails for keys over 64 bytes. None is an error. *)
Definition pairwise_encode (blake : string -> string -> string)
    (salt sector subject : string) : option string :=
  if Nat.ltb (String.length salt) 16 then None
  else
    let subject := trim_space subject in
    if Nat.eqb (String.length subject) 0 then None
    else if Nat.ltb 64 (String.length salt) then None
    else Some (b64url (blake salt (sector ++ subject)%string)).

(** ** sdk/rfcerrors *)

(** errors.go:23-178, one constructor function each *)
Inductive condition :=
  | ServerError | InvalidRequest | InvalidScope | InvalidGrant | InvalidClient
  | UnauthorizedClient | UnsupportedGrantType | InvalidToken | AuthorizationPending
  | Slowdown | AccessDenied | TokenExpired | InvalidDPoPProof | InvalidRedirectURI
  | InvalidClientMetadata | InvalidSoftwareStatement | UnapprovedSoftwareStatement
  | InvalidTarget | InsufficientUserAuthentication.

(** builder.go:34-40 defaultErrorBuilder *)
Record builder := mkBuilder {
  b_err : string; b_description : string; b_uri : string;
  b_state : string; b_resource : string }.

(** api/oidc/core/v1 Error *)
Record built := mkBuilt {
  bt_code : string; bt_description : string; bt_uri : option string;
  bt_state : option string; bt_resource : option string }.

(** errors.go:23-178 *)
Definition new_builder (c : condition) : builder :=
  let mk e d := mkBuilder e d "" "" "" in
  match c with
  | ServerError => mk "server_error" "The authorization server encountered an unexpected condition that prevented it from fulfilling the request."
  | InvalidRequest => mk "invalid_request" "The request is missing a required parameter, includes an invalid parameter value, includes a parameter more than once, or is otherwise malformed."
  | InvalidScope => mk "invalid_scope" "The request is missing a required parameter, includes an invalid parameter value, includes a parameter more than once, or is otherwise malformed."
  | InvalidGrant => mk "invalid_grant" "The provided authorization grant (e.g., authorization code, resource owner credentials) or refresh token is invalid, expired, revoked, does not match the redirection URI used in the authorization request, or was issued to another client."
  | InvalidClient => mk "invalid_client" "Client authentication failed (e.g., unknown client, no client authentication included, or unsupported authentication method)."
  | UnauthorizedClient => mk "unauthorized_client" "The authenticated client is not authorized to use this authorization grant type."
  | UnsupportedGrantType => mk "unsupported_grant_type" "The authorization grant type is not supported by the authorization server."
  | InvalidToken => mk "invalid_token" "The access token provided is expired, revoked, malformed, or invalid for other reasons."
  | AuthorizationPending => mk "authorization_pending" "The authorization request is still pending as the end user hasn't yet completed the user-interaction steps."
  | Slowdown => mk "slow_down" "The authorization request is still pending and polling should continue, but the interval MUST be increased by 5 seconds for this and all subsequent requests."
  | AccessDenied => mk "access_denied" "The authorization request was denied."
  | TokenExpired => mk "token_expired" "The 'device_code' has expired, and the device authorization session has concluded."
  | InvalidDPoPProof => mk "invalid_dpop_proof" "The provided DPoP proof is expired, malformed, or invalid for other reasons."
  | InvalidRedirectURI => mk "invalid_redirect_uri" "The value of one or more redirection URIs is invalid."
  | InvalidClientMetadata => mk "invalid_client_metadata" "The value of one of the client metadata fields is invalid and the server has rejected this request."
  | InvalidSoftwareStatement => mk "invalid_software_statement" "The software statement presented is invalid."
  | UnapprovedSoftwareStatement => mk "unapproved_software_statement" "The software statement presented is not approved for use by this authorization server."
  | InvalidTarget => mk "invalid_target" "The requested resource is invalid, missing, unknown, or malformed."
  | InsufficientUserAuthentication => mk "insufficient_user_authentication" "The authentication event associated with the access token presented with the request does not meet the authentication requirements of the protected resource."
  end%string.

(** builder.go:28-32: the calls the ErrorBuilder interface offers *)
Inductive builder_call := CallState (v : string) | CallDescription (v : string) | CallBuild.

Definition non_empty (s : string) : option string := if is_empty s then None else Some s.

(** builder.go:67-85 Build *)
Definition build (b : builder) : built :=
  mkBuilt (b_err b) (b_description b) (non_empty (b_uri b)) (non_empty (b_state b))
    (non_empty (b_resource b)).

(** builder.go:42-45, 52-55: the setters write to the builder they are called on. *)
Definition set_state (b : builder) (v : string) : builder :=
  mkBuilder (b_err b) (b_description b) (b_uri b) v (b_resource b).
Definition set_description (b : builder) (v : string) : builder :=
  mkBuilder (b_err b) v (b_uri b) (b_state b) (b_resource b).

(** A sequence of calls on one builder, and the error objects it returned. *)
Fixpoint run_builder (b : builder) (calls : list builder_call) : list built :=
  match calls with
  | [] => []
  | CallState v :: r => run_builder (set_state b v) r
  | CallDescription v :: r => run_builder (set_description b v) r
  | CallBuild :: r => build b :: run_builder b r
  end.
