(** * Vocabulary for the statements about attested clients *)

From Verif Require Export SpecWebLive Attestation.

(** What is expected of the JOSE library of the attestation server, whose public key is [k]. *)
Definition attester_signs (E : ext) (k : jwk) (sign : claims -> option string) : Prop :=
  forall cl raw, sign cl = Some raw ->
    ~ In "~"%char (list_ascii_of_string raw) /\ x_payload E KAttestation raw = Some cl /\ x_verify E k raw = true.
(** And of that of a client, whose public key is [k]. *)
Definition pop_signs (E : ext) (k : jwk) (sign : claims -> option string) : Prop :=
  forall cl raw, sign cl = Some raw -> x_payload E KPop raw = Some cl /\ x_verify E k raw = true.
(** The attestation server is registered with its public key. *)
Definition attester_registered (E : ext) (w : world) (k : jwk) : Prop :=
  exists attester keys, w_clients w "urn:solid:attestation-server" = Some attester /\
    cl_jwks attester <> ""%string /\ x_jwks E (cl_jwks attester) = Some keys /\ In k keys /\ k_use k <> "enc"%string.
(** The server accepts the algorithms with which the tokens are signed. *)
Definition accepts_both (E : ext) (asign csign : claims -> option string) : Prop :=
  (forall cl raw, asign cl = Some raw -> x_parse_jose E raw = true) /\
  (forall cl raw, csign cl = Some raw -> x_parse_pop E raw = true).

(** [alg] reads the algorithm in the header of a compact JWS.  main.go:51 of the authorization
    server gives client authentication these two. *)
Definition accepts_ecdsa_only (E : ext) (alg : string -> string) : Prop :=
  forall raw, x_parse_jose E raw = true -> alg raw = "ES256"%string \/ alg raw = "ES384"%string.
(** attestationserver/main.go:41 *)
Definition signs_eddsa (alg : string -> string) (sign : claims -> option string) : Prop :=
  forall cl raw, sign cl = Some raw -> alg raw = "EdDSA"%string.
(** The endpoints for authenticated clients. *)
Definition for_clients (e : endpoint) : Prop :=
  match e with EAuthorize | EDevice => False | _ => True end.

(** HTTP request [i] stored the token [access] for client [c]. *)
Definition token_for (hh : list hevent) (i : nat) (access : string) (c : client) : Prop :=
  exists issuer t m a, In (HvCall i (CTokCreate issuer t) a) hh /\ ans_ok a = true /\
    t_value t = access /\ t_meta t = Some m /\ m_client_id m = cl_id c.
