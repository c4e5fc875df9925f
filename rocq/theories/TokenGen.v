(** * sdk/token/verifiable/verifiable.go: the token generators *)

From Verif Require Import Strs Types Verifiable.

(** verifiable.go:32-41 Generate: the prefix option for the type of the token; without an option
    the prefix stays empty. *)
Definition kind_prefix (ty : token_type) : string :=
  match ty with
  | TtAccess => "sldat"
  | TtRefresh => "sldrt"
  | TtPhantom => "sldpt"
  | _ => ""
  end%string.

(** verifiable.go:22-50 Generate: [generator] is the key of the UUID generator (nil without one,
    L25), [t] the token (L27); [uuid] and [nonce] are what the UUID source and the random reader
    return, None if they fail.  Only the type of the token is used. *)
Definition token_value (C : crypto) (generator : option string) (t : option token)
    (uuid nonce : option string) : option string :=
  match generator, t with
  | None, _ | _, None => None
  | Some secret, Some t => uuid_generate C secret (kind_prefix (t_type t)) uuid nonce
  end.

(** examples/authorizationserver/main.go:40-41: the keys of the two generators. *)
Definition access_secret : string := "very-secret-key-for-access-token-verification".
Definition refresh_secret : string := "very-secret-key-for-refresh-token-verification".
