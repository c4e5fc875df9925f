(** * sdk/token/verifiable/uuid.go: wrapped UUIDs with an HMAC *)

From Verif Require Import Strs Prog Base62 Compare.
Local Open Scope N_scope.

(** The cryptographic primitives are parameters: [hkdf secret salt info] is the first 32
    bytes of golang.org/x/crypto/hkdf with SHA-256 (reading 32 bytes never fails),
    [hmac key message] is HMAC-SHA256; [lower] is strings.ToLower. *)
Record crypto := mkCrypto {
  cr_hkdf : string -> string -> string -> string;
  cr_hmac : string -> string -> string;
  cr_lower : string -> string
}.

(** api.go:9-10: the regexp [^a-z0-9-] does not match. *)
Definition prefix_char (a : ascii) : bool :=
  in_range (byte a) 97 122 || in_range (byte a) 48 57 || (byte a =? 45).

Fixpoint all_chars (f : ascii -> bool) (s : string) : bool :=
  match s with EmptyString => true | String a r => f a && all_chars f r end.

(** The character class [a-zA-Z0-9]. *)
Definition alnum (a : ascii) : bool :=
  in_range (byte a) 97 122 || in_range (byte a) 65 90 || in_range (byte a) 48 57.

(** Everything before the first '_', and what follows it. *)
Fixpoint cut (s : string) : option (string * string) :=
  match s with
  | EmptyString => None
  | String a r =>
      if byte a =? 95 then Some (""%string, r)
      else match cut r with Some (x, y) => Some (String a x, y) | None => None end
  end.

(** uuid.go:18: ^[a-zA-Z0-9]{22}_[a-zA-Z0-9]{59,60}$ ('$' without the m flag is the end of
    the text in Go). *)
Definition wrapped_format (s : string) : bool :=
  match cut s with
  | Some (u, m) =>
      (String.length u =? 22)%nat && all_chars alnum u &&
      ((String.length m =? 59)%nat || (String.length m =? 60)%nat) && all_chars alnum m
  | None => false
  end.

Section Uuid.
Context (C : crypto).

(** uuid.go:122-131 and 182-188: the authentication code of a UUID. *)
Definition uuid_mac (secret nonce prefix uuid : string) : string :=
  cr_hmac C (cr_hkdf C secret nonce "solid-uuid-wrapper-mac-v1")
    ("solid-uuid-protected-token-v1" ++ prefix ++ uuid)%string.

(** options.go:16-20 WithTokenPrefix; no option is the empty prefix. *)
Definition token_prefix (value : string) : string := trim_space (cr_lower C value).

(** uuid.go:91-138 Generate: [uuid] is what the source returned and [nonce] what the random
    reader returned, or None if they failed. *)
Definition uuid_generate (secret value : string) (uuid nonce : option string) : option string :=
  match uuid with
  | None => None
  | Some uuid =>
    match nonce with
    | None => None
    | Some nonce =>
      let p := token_prefix value in
      if is_empty p then
        Some (to_padded_base62 uuid 22 ++ "_" ++ to_padded_base62 (nonce ++ uuid_mac secret nonce "" uuid) 59)%string
      else if negb (all_chars prefix_char p) then None
      else
        let prefix := (p ++ "_")%string in
        Some (prefix ++ to_padded_base62 uuid 22 ++ "_" ++
              to_padded_base62 (nonce ++ uuid_mac secret nonce prefix uuid) 59)%string
    end
  end.

(** uuid.go:146-151: strings.SplitN(in, "_", 3) *)
Definition split_prefix (s : string) : string * string :=
  match cut s with
  | Some (a, r) => match cut r with Some _ => ((a ++ "_")%string, r) | None => (""%string, s) end
  | None => (""%string, s)
  end.

(** uuid.go:145-196 Extract: [Done None] is an error, [Crashed] a panic. *)
Definition uuid_extract (secret s : string) : outcome (option string) :=
  let '(prefix, rest) := split_prefix s in
  if negb (wrapped_format rest) then Done None
  else
    match cut rest with
    | None => Crashed (* parts[1] out of range; the format excludes this *)
    | Some (u, m) =>
      match parse_padded_base62 u 16 with
      | Crashed => Crashed
      | Done None => Done None
      | Done (Some uuid) =>
        match parse_padded_base62 m 44 with
        | Crashed => Crashed
        | Done None => Done None
        | Done (Some sig) =>
          let nonce := substring 0 12 sig in
          let mac := substring 12 32 sig in
          if (constant_time_compare mac (uuid_mac secret nonce prefix uuid) =? 1) then Done (Some uuid) else Done None
        end
      end
    end.

(** uuid.go:140-143 Verify: nil or an error. *)
Definition uuid_verify (secret s : string) : outcome bool :=
  match uuid_extract secret s with
  | Done (Some _) => Done true
  | Done None => Done false
  | Crashed => Crashed
  end.

End Uuid.
