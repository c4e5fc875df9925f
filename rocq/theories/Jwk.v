(** * sdk/jwk/signature.go and key selection of sdk/token/jwt *)

From Verif Require Export Types.

Section Jwk.
Context (E : ext).

(** The loop of sdk/jwk/signature.go:46-64 and 88-106 and of
    sdk/token/jwt/verifier.go:102-120: the first key that is not an encryption
    key and that verifies. *)
Fixpoint find_key (ok : jwk -> bool) (keys : list jwk) : option jwk :=
  match keys with
  | [] => None
  | k :: r =>
      if String.eqb (k_use k) "enc" then find_key ok r
      else if ok k then Some k
      else find_key ok r
  end.

(** sdk/jwk/signature.go:74-113 ValidateSignature, on a non-nil key set and
    signature. *)
Definition validate_signature (keys : list jwk) (raw : string) : bool :=
  match keys with
  | [] => false
  | _ => match find_key (fun k => x_verify E k raw) keys with Some _ => true | None => false end
  end.

(** jwt.JSONWebToken.Claims(key, dest): the signature verifies and the payload
    decodes into the destination ([dec]). *)
Definition token_decode {A} (dec : string -> option A) (k : jwk) (raw : string) : option A :=
  if x_verify E k raw then dec raw else None.
Definition token_claims (kind : claims_kind) (k : jwk) (raw : string) : option claims :=
  token_decode (x_payload E kind) k raw.

Definition is_some {A} (o : option A) : bool := match o with Some _ => true | None => false end.

(** sdk/jwk/signature.go:32-71 ValidateToken *)
Definition validate_token {A} (dec : string -> option A) (keys : list jwk) (raw : string) : option A :=
  match keys with
  | [] => None
  | _ =>
      match find_key (fun k => is_some (token_decode dec k raw)) keys with
      | Some k => token_decode dec k raw
      | None => None
      end
  end.

(** go-jose JSONWebKeySet.Key(kid): the keys with that id. *)
Definition keys_by_id (keys : list jwk) (kid : string) : list jwk :=
  filter (fun k => String.eqb (k_id k) kid) keys.

(** sdk/token/jwt/verifier.go:77-127 Claims.  [keys] is the answer of the key set
    provider ([None] when it failed).  A parsed compact JWS always has one header. *)
Definition verifier_claims {A} (dec : string -> option A) (keys : option (list jwk)) (raw : string)
  : option A :=
  match x_parse E raw with
  | None => None
  | Some t =>
      match keys with
      | None => None
      | Some keys =>
          let keys := if is_empty (j_kid t) then keys else keys_by_id keys (j_kid t) in
          match find_key (fun k => is_some (token_decode dec k raw)) keys with
          | Some k => token_decode dec k raw
          | None => None
          end
      end
  end.

(** sdk/token/jwt/embedded_verifier.go:88-105 Claims: the key is the one in the
    header.  Verifying with a nil key is an error of go-jose. *)
Definition embedded_claims {A} (dec : string -> option A) (raw : string) : option A :=
  match x_parse E raw with
  | None => None
  | Some t => match j_jwk t with None => None | Some k => token_decode dec k raw end
  end.

End Jwk.
