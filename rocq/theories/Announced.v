(** * Announced: the lists in the metadata of the authorization server *)

From Verif Require Export Discovery.

(** examples/authorizationserver/handlers/metadata.go:36-38; the values of the constants are in
    oidc/constants.go *)
Definition announced_subject_types : list string := ["pairwise"].
(** metadata.go:40-42 *)
Definition announced_response_types : list string := ["code"].
(** metadata.go:52-58 *)
Definition announced_grant_types : list string :=
  ["client_credentials"; "authorization_code"; "refresh_token"; "urn:ietf:params:oauth:grant-type:device_code";
   "urn:ietf:params:oauth:grant-type:token-exchange"].
(** metadata.go:60-63, and the same list for the other endpoints at 67, 70 and 77 *)
Definition announced_auth_methods : list string := ["private_key_jwt"; "attest_jwt_client_auth"].
(** metadata.go:65 *)
Definition announced_challenge_methods : list string := ["S256"].
(** metadata.go:73 *)
Definition announced_dpop_algs : list string := ["ES256"].
(** metadata.go:79 *)
Definition announced_request_algs : list string := ["ES384"].
