(** * The keys of the authorization server, and the profile of its clients *)

From Verif Require Export SignedDocs Announced.

(** ** Keys

    go-jose JSONWebKey, for keys on elliptic curves: the point, the secret when the key is private,
    and the members kid, alg and use.  Numbers are kept as the text of their encoding; certificates
    are left out. *)
Record ec_key := mkEc {
  ec_crv : string; ec_x : string; ec_y : string; ec_d : option string;
  ec_kid : string; ec_alg : string; ec_use : string
}.

(** JSONWebKey.Public: a private key gives its public part with the same kid, alg and use; a
    public key gives itself. *)
Definition ec_public (k : ec_key) : ec_key :=
  mkEc (ec_crv k) (ec_x k) (ec_y k) None (ec_kid k) (ec_alg k) (ec_use k).

(** JSONWebKey.MarshalJSON *)
Definition key_doc (k : ec_key) : jdoc :=
  (jtext_opt "use" (ec_use k) ++ jtext "kty" "EC" ++ jtext_opt "kid" (ec_kid k) ++ jtext_opt "crv" (ec_crv k) ++
   jtext_opt "alg" (ec_alg k) ++ jtext "x" (ec_x k) ++ jtext "y" (ec_y k) ++
   match ec_d k with Some d => jtext "d" d | None => [] end)%list.

(** The text of a member; [None] when it is absent, null or of another type. *)
Fixpoint text_at (name : string) (d : jdoc) : option string :=
  match d with
  | [] => None
  | (n, v) :: d => if String.eqb n name then match v with JsStr s => Some s | _ => None end else text_at name d
  end.
Definition text_or (name : string) (d : jdoc) : string :=
  match text_at name d with Some s => s | None => "" end.

(** JSONWebKey.UnmarshalJSON.  [sound]: the library knows the curve, the coordinates are a point of
    it and the secret has its size. *)
Definition read_key (sound : string -> string -> string -> option string -> bool) (doc : jdoc) : option ec_key :=
  if negb (String.eqb (text_or "kty" doc) "EC") then None
  else
    match text_at "x" doc, text_at "y" doc with
    | Some x, Some y =>
        if sound (text_or "crv" doc) x y (text_at "d" doc)
        then Some (mkEc (text_or "crv" doc) x y (text_at "d" doc) (text_or "kid" doc) (text_or "alg" doc) (text_or "use" doc))
        else None
    | _, _ => None
    end.

(** ** examples/authorizationserver/settings.go *)

(** settings.go:12-21 jwkPrivateKey *)
Definition settings_doc : jdoc :=
  (jtext "kty" "EC" ++
   jtext "d" "-3yrGLfHTjuvcpG8gZzwQoz9P6uWgBW6HTmYTb-f6u4HxK05PpTdheKBdQ1nXkV-" ++
   jtext "use" "sig" ++
   jtext "crv" "P-384" ++
   jtext "kid" "123456789" ++
   jtext "x" "De4LLFSUCTAAU8O7_ew0VkNR03_kTH9SNCFuhbpi8D1JUbhABRLpNygSDLf2waQt" ++
   jtext "y" "cEXPFElY6-qb-5xsFu875_58D3lKZlcOzD99ulje6CAh4D_rJjYU7quxf82xCAUZ" ++
   jtext "alg" "ES384")%list.

Section Server.
Context (sound : string -> string -> string -> option string -> bool).

(** settings.go:23-36 keyProvider, with the document as a parameter: decoded once, at start; a
    document that cannot be decoded is a panic. *)
Definition key_provider (doc : jdoc) : outcome ec_key :=
  match read_key sound doc with Some k => Done k | None => Crashed end.

(** settings.go:38-55 keySetProvider *)
Definition key_set_provider (doc : jdoc) : outcome (list ec_key) :=
  match read_key sound doc with Some k => Done [ec_public k] | None => Crashed end.

(** ** examples/authorizationserver/handlers/jwks.go:29-42 JWKS

    [answer] is that of the key set provider: [None] an error, [Some None] a nil set. *)
Inductive keys_response :=
| KeysSent (docs : list jdoc)      (* 200 and {"keys": [...]} *)
| KeysNull                         (* 200 and null *)
| KeysFailed (status : N).         (* the error server_error *)

Definition jwks_handler (answer : option (option (list ec_key))) : keys_response :=
  match answer with
  | None => KeysFailed 500
  | Some None => KeysNull
  | Some (Some ks) => KeysSent (map key_doc ks)
  end.

(** ** client/http.go:452-477: how the SDK client reads that response

    [of_ec] forgets the parts of a key that the rest of the model does not look into.  A key that
    cannot be decoded fails the whole document (go-jose v4.0.2).  The server never sends the
    member exp. *)
Fixpoint read_keys (docs : list jdoc) : option (list ec_key) :=
  match docs with
  | [] => Some []
  | d :: docs =>
      match read_key sound d, read_keys docs with Some k, Some ks => Some (k :: ks) | _, _ => None end
  end.

Definition read_response (of_ec : ec_key -> jwk) (r : keys_response) : jwks_answer :=
  match r with
  | KeysFailed _ => JwksFails
  | KeysNull => JwksDoc None 0
  | KeysSent docs =>
      match read_keys docs with None => JwksFails | Some ks => JwksDoc (Some (map of_ec ks)) 0 end
  end.
End Server.

(** ** server/profile *)

(** client.go:22-27; the member defaultScopes is never set. *)
Record client_profile := mkProfile { pr_grants : list string; pr_auth : list string; pr_responses : list string }.

(** profile_strict.go:22-79 and server.go:24-27 ApplicationType; the names are in
    oidc/const.go:124-135. *)
Definition strict_profile (name : string) : option client_profile :=
  if String.eqb name "web" then Some (mkProfile ["authorization_code"] ["private_key_jwt"] ["code"])
  else if String.eqb name "native" then
    Some (mkProfile ["authorization_code"; "refresh_token"] ["private_key_jwt"] ["code"])
  else if String.eqb name "device" then
    Some (mkProfile ["urn:ietf:params:oauth:grant-type:device_code"; "refresh_token"] ["private_key_jwt"] ["code"])
  else if String.eqb name "service" then Some (mkProfile ["client_credentials"] ["private_key_jwt"] ["token"])
  else None.
