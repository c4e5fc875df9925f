(** * sdk/token/jwt/signer.go, builders.go and sdk/dpop/prover.go *)

From Verif Require Export Claims DPoP.

(** sdk/token/api.go:30-44: the "typ" headers given by the builders. *)
Definition type_access_token := "at".
Definition type_refresh_token := "rt".
Definition type_authz_request := "oauth-authz-req".
Definition type_jarm := "jarm".
Definition type_dpop := "dpop".
Definition type_client_assertion := "client-assertion".
Definition type_introspection := "token-introspection".
Definition type_metadata := "oauth-authorization-server".

(** Answer of a key provider (sdk/jwk/api.go KeyProviderFunc): an error, a nil key,
    or a key. *)
Inductive key_answer := KErr | KNil | KKey (k : jwk).

(** go-jose: jose.NewSigner and jwt.Signed(..).Claims(..).Serialize() with headers
    typ and kid and, when [embed], the public part of the key. *)
Definition jose_sign (A : Type) : Type := forall (typ : string) (k : jwk) (embed : bool), A -> option string.

(** signer.go:39-80 Serialize on non-nil claims; the provider is [None] when nil. *)
Definition jwt_serialize {A} (sign : jose_sign A) (typ : string) (embed : bool)
    (provider : option key_answer) (c : A) : option string :=
  match provider with
  | None | Some KErr | Some KNil => None
  | Some (KKey k) => if is_empty (k_id k) then None else sign typ k embed c
  end.

(** builders.go:27-105 *)
Definition access_token_signer {A} (sign : jose_sign A) := jwt_serialize sign type_access_token false.
Definition refresh_token_signer {A} (sign : jose_sign A) := jwt_serialize sign type_refresh_token false.
Definition request_signer {A} (sign : jose_sign A) := jwt_serialize sign type_authz_request false.
Definition jarm_signer {A} (sign : jose_sign A) := jwt_serialize sign type_jarm false.
Definition dpop_signer {A} (sign : jose_sign A) := jwt_serialize sign type_dpop true.
Definition client_assertion_signer {A} (sign : jose_sign A) := jwt_serialize sign type_client_assertion false.

Section Prover.
Context (E : ext).
(** fmt.Sprintf("%s://%s%s", u.Scheme, u.Host, u.Path) of a request URI *)
Context (clean : string -> string).

(** sdk/dpop/prover.go:53-109 Prove; [jti] is uniuri.NewLen(16), [now] the clock in
    seconds.  [None] is an error. *)
Definition dpop_prove (ser : option (claims -> option string)) (htm htu : string)
    (token_value : option string) (jti : string) (now : N) : option string :=
  match ser with
  | None => None
  | Some ser =>
      if is_empty htm || is_empty htu then None
      else if negb (x_request_uri E htu) then None
      else if negb (existsb (String.eqb (x_upper E htm)) http_methods) then None
      else
        ser (mkClaims "" "" "" jti 0 0 now None htm (clean htu)
               (match token_value with
                | None => None
                | Some tv => Some (b64url (x_sha256 E tv))
                end))
  end.
End Prover.

(** sdk/dpop/url.go:26-38 CleanURL: the "X-Forwarded-Scheme" header, when present,
    replaces the scheme of the connection. *)
Definition clean_url (tls : bool) (forwarded host path : string) : string :=
  ((if is_empty forwarded then if tls then "https" else "http" else forwarded)
   ++ "://" ++ host ++ path)%string.
