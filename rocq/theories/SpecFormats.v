(** * Vocabulary: signed objects in three formats *)

From Verif Require Export Formats.

(** What somebody who opens a signed object reads. *)
Record opened (A : Type) := mkOpened { op_kid : string; op_typ : string; op_claims : A }.
Arguments mkOpened {A}. Arguments op_kid {A}. Arguments op_typ {A}. Arguments op_claims {A}.

(** Readers for the three formats: the content, and whether the signature is one by the owner of a key. *)
Record readers (A : Type) := mkReaders {
  open_jwt : string -> option (opened A); valid_jwt : jwk -> string -> bool;
  open_cwt : string -> option (opened A); valid_cwt : jwk -> string -> bool;
  open_paseto : string -> option (opened A); valid_paseto : jwk -> string -> bool
}.
Arguments open_jwt {A}. Arguments valid_jwt {A}. Arguments open_cwt {A}. Arguments valid_cwt {A}.
Arguments open_paseto {A}. Arguments valid_paseto {A}.

Definition opens {A} (R : readers A) (f : format) : string -> option (opened A) :=
  match f with FJwt => open_jwt R | FCwt _ => open_cwt R | FPaseto => open_paseto R end.
Definition valid {A} (R : readers A) (f : format) : jwk -> string -> bool :=
  match f with FJwt => valid_jwt R | FCwt _ => valid_cwt R | FPaseto => valid_paseto R end.

(** The type of an object made for a purpose. *)
Definition purpose_name (b : builder) : string :=
  match b with
  | BAccessToken => "at" | BRefreshToken => "rt" | BRequest => "oauth-authz-req" | BJarm => "jarm" | BDpop => "dpop"
  | BClientAssertion => "client-assertion" | BIntrospection => "token-introspection"
  end%string.
Definition written_type (f : format) (b : builder) : string :=
  match f with
  | FJwt => purpose_name b
  | FCwt _ => purpose_name b ++ "+cwt"
  | FPaseto => purpose_name b ++ "+paseto"
  end%string.

(** The libraries write what they are given, readers get it back, and signatures verify.  Public keys
    sign no JWT.  For COSE, whatever identifier is put into the unprotected headers. *)
Definition libraries_work {A} (L : libraries A) (R : readers A) : Prop :=
  (forall typ k embed c raw, lib_jose L typ k embed c = Some raw ->
     lib_public L k = false /\ open_jwt R raw = Some (mkOpened (k_id k) typ c) /\ valid_jwt R k raw = true) /\
  (forall k kid typ alg c b s m, lib_cbor L c = Some b -> lib_cose_sign L k typ alg b "solid" = Some s ->
     lib_cose_write L kid typ alg b s = Some m ->
     open_cwt R (b64url m) = Some (mkOpened kid typ c) /\ valid_cwt R k (b64url m) = true) /\
  (forall k kid typ c m f raw, lib_json L c = Some m -> lib_footer L kid typ = Some f -> lib_paseto L k m f = Some raw ->
     open_paseto R raw = Some (mkOpened kid typ c) /\ valid_paseto R k raw = true) /\
  (* an Ed25519 private key is not a public key *)
  (forall k, lib_ed25519 L k = true -> lib_public L k = false).

(** Two serializers for the same format. *)
Definition same_format (f f' : format) : Prop :=
  match f, f' with FJwt, FJwt | FCwt _, FCwt _ | FPaseto, FPaseto => True | _, _ => False end.
