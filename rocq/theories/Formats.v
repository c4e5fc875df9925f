(** * sdk/token/jwt, sdk/token/cwt and sdk/token/paseto: the three serializers

    The claims are [None] when types.IsNil says so (sdk/types/null.go:23-25), the
    provider is [None] when it is nil.  [None] is an error, [Crashed] a panic. *)

From Verif Require Export Signer.

(** Which serializer; a CWT serializer has a *cose.Algorithm, [None] when nil. *)
Inductive format := FJwt | FCwt (alg : option string) | FPaseto.

(** The functions of sdk/token/jwt/builders.go:27-105 and sdk/token/cwt/builders.go:27-88,
    without ServerMetadata, which only exists for JWT. *)
Inductive builder :=
| BAccessToken | BRefreshToken | BRequest | BJarm | BDpop | BClientAssertion | BIntrospection.
Definition builder_type (b : builder) : string :=
  match b with
  | BAccessToken => type_access_token
  | BRefreshToken => type_refresh_token
  | BRequest => type_authz_request
  | BJarm => type_jarm
  | BDpop => type_dpop
  | BClientAssertion => type_client_assertion
  | BIntrospection => type_introspection
  end.
(** jwt/builders.go: embedJWK *)
Definition builder_embeds (b : builder) : bool := match b with BDpop => true | _ => false end.

(** What the libraries do; [A] is the type of the claims. *)
Record libraries (A : Type) := mkLibs {
  (* go-jose, see Signer.v *)
  lib_jose : jose_sign A;
  (* go-jose JSONWebKey.IsPublic; whether Key is an ed25519.PrivateKey *)
  lib_public : jwk -> bool;
  lib_ed25519 : jwk -> bool;
  (* cbor.Marshal, and json.NewEncoder(..).Encode of the claims and of the footer (kid, typ) *)
  lib_cbor : A -> option string;
  lib_json : A -> option string;
  lib_footer : string -> string -> option string;
  (* cose.NewSignerFromKey: nil algorithms are not refused *)
  lib_cose_key : option string -> jwk -> bool;
  (* SignMessage.Sign with protected headers typ and alg, a payload and external data: RFC 8152
     section 4.4, the unprotected headers are not covered *)
  lib_cose_sign : jwk -> forall typ alg payload external : string, option string;
  (* SignMessage.MarshalCBOR: kid, typ, alg, payload, signature *)
  lib_cose_write : forall kid typ alg payload signature : string, option string;
  (* pasetov4.Sign: message and footer *)
  lib_paseto : jwk -> forall message footer : string, option string
}.
Arguments lib_jose {A}. Arguments lib_public {A}. Arguments lib_ed25519 {A}. Arguments lib_cbor {A}. Arguments lib_json {A}.
Arguments lib_footer {A}. Arguments lib_cose_key {A}. Arguments lib_cose_sign {A}. Arguments lib_cose_write {A}. Arguments lib_paseto {A}.

Section Formats.
Context {A : Type} (L : libraries A).

(** jwt/signer.go:39-80 *)
Definition jwt_sign (typ : string) (embed : bool) (provider : option key_answer) (claims : option A) : outcome (option string) :=
  match claims with
  | None => Done None
  | Some c => Done (jwt_serialize (lib_jose L) typ embed provider c)
  end.

(** cwt/signer.go:52-109.  The provider is called without a test for nil; the name of the
    algorithm is read from a pointer. *)
Definition cwt_sign (typ : string) (alg : option string) (provider : option key_answer) (claims : option A) : outcome (option string) :=
  match claims with
  | None => Done None
  | Some c =>
      match provider with
      | None => Crashed
      | Some KErr | Some KNil => Done None
      | Some (KKey k) =>
          if is_empty (k_id k) then Done None
          else if lib_public L k then Done None
          else if negb (lib_cose_key L alg k) then Done None
          else
            match alg with
            | None => Crashed
            | Some a =>
                let typ := (typ ++ "+cwt")%string in
                match lib_cbor L c with
                | None => Done None
                | Some b =>
                    match lib_cose_sign L k typ a b "solid" with
                    | None => Done None
                    | Some s =>
                        match lib_cose_write L (k_id k) typ a b s with
                        | None => Done None
                        | Some m => Done (Some (b64url m))
                        end
                    end
                end
            end
      end
  end.

(** paseto/signer.go:37-103 *)
Definition paseto_sign (typ : string) (provider : option key_answer) (claims : option A) : outcome (option string) :=
  match claims with
  | None => Done None
  | Some c =>
      match provider with
      | None | Some KErr | Some KNil => Done None
      | Some (KKey k) =>
          if is_empty (k_id k) then Done None
          else if negb (lib_ed25519 L k) then Done None
          else
            match lib_json L c with
            | None => Done None
            | Some m =>
                match lib_footer L (k_id k) (typ ++ "+paseto") with
                | None => Done None
                | Some f => Done (lib_paseto L k m f)
                end
            end
      end
  end.

(** The serializer of one of the builders; for PASETO, DefaultSigner with the same type
    (paseto/signer.go:37-42). *)
Definition serialize (f : format) (b : builder) (provider : option key_answer) (claims : option A) : outcome (option string) :=
  match f with
  | FJwt => jwt_sign (builder_type b) (builder_embeds b) provider claims
  | FCwt alg => cwt_sign (builder_type b) alg provider claims
  | FPaseto => paseto_sign (builder_type b) provider claims
  end.
End Formats.
