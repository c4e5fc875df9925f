(** * Vocabulary: what a signed object was made for, and what it is taken for *)

From Verif Require Export SignedDocs ClientAuth DPoP SpecJsonReq.

(** What the SDK signs objects for. *)
Inductive purpose := MProof | MResponse | MRequest | MAssertion | MAccessToken | MRefreshToken | MIntrospection.

(** What the server and the SDK take signed objects for. *)
Inductive use := UProof | UResponse | URequest | UAssertion | UAttestation | UPossession.

(** The "typ" of the builders of sdk/token/jwt, and the one that the readers ask for. *)
Definition types_of (p : purpose) : list string :=
  match p with
  | MProof => ["dpop"; "dpop+jwt"]
  | MResponse => ["jarm"; "jarm+jwt"]
  | MRequest => ["oauth-authz-req"; "oauth-authz-req+jwt"]
  | MAssertion => ["client-assertion"; "client-assertion+jwt"]
  | MAccessToken => ["at"; "at+jwt"]
  | MRefreshToken => ["rt"; "rt+jwt"]
  | MIntrospection => ["token-introspection"; "token-introspection+jwt"]
  end%string.

Section Purpose.
Context (E : ext) (K : checks) (utf8 : string -> bool) (read_u64 : string -> option N).
(** go-jose's signer, and the document inside a signed object. *)
Context (sign : jose_sign jdoc) (payload : string -> option jdoc).

(** The SDK made [raw] for this purpose, with some key. *)
Definition made_for (p : purpose) (raw : string) : Prop :=
  exists typ embed provider, In typ (types_of p) /\
  let ser d := jwt_serialize sign typ embed provider d in
  match p with
  | MProof => exists clean htm htu tv jti now,
      dpop_prove E clean (Some (fun c => ser (proof_doc c))) htm htu tv jti now = Some raw
  | MResponse => exists issuer resp now, (forall r desc, resp = Some r -> jr_error r <> Some (""%string, desc)) /\
      jarm_encode (fun c => ser (response_doc c)) issuer resp now = Some raw
  | MRequest => exists r, encode_request utf8 ser r = Some raw
  | MAssertion => exists t now, client_assertion_generate K (Some (fun c => ser (assertion_doc c))) t now = Some raw
  | MAccessToken => exists t now, access_token_generate K (Some (fun c => ser (token_doc c))) t now = Some raw
  | MRefreshToken => exists t now, refresh_token_generate K (Some (fun c => ser (token_doc c))) t now = Some raw
  | MIntrospection => exists t now1 now2, introspection_generate (Some (fun d => ser (map_doc d))) t now1 now2 = Some raw
  end.

(** [raw] was accepted as this, by a reader with some keys and some stores. *)
Definition taken_as (u : use) (raw : string) : Prop :=
  match u with
  | UProof => exists htm htu tv tc tr thumb, runs (dpop_verify E htm htu raw tv tc) tr (Done (Some thumb))
  | UResponse => exists dec keys issuer audience now r, jarm_decode E dec keys issuer audience raw now = JOk r
  | URequest => exists verify r, (forall d, verify raw = Some d -> exists d', payload raw = Some d' /\ Permutation d d') /\
      decode_request read_u64 verify raw = Some r
  | UAssertion => exists req tr res, aq_assertion req = Some raw /\
      runs (private_key_jwt E (Some req)) tr (Done res) /\ aa_err res = false
  | UAttestation => exists req both pop tr res, aq_assertion req = Some both /\ split_tilde both = Some (raw, pop) /\
      runs (client_attestation E (Some req)) tr (Done res) /\ aa_err res = false
  | UPossession => exists req both att tr res, aq_assertion req = Some both /\ split_tilde both = Some (att, raw) /\
      runs (client_attestation E (Some req)) tr (Done res) /\ aa_err res = false
  end.

(** What is signed has the header and the members that were given to the signer. *)
Definition signs_documents : Prop :=
  forall typ k embed d raw, sign typ k embed d = Some raw ->
    (forall t, x_parse E raw = Some t -> j_typ t = Some typ) /\ exists d', payload raw = Some d' /\ Permutation d d'.

(** A string member of a document: empty when the document has none with this name. *)
Definition reads_text (d : jdoc) (name value : string) : Prop :=
  (~ In name (map fst d) -> value = ""%string) /\ (forall v, In (name, JsStr v) d -> value = v).

(** Members whose names are in lower case, each of them once; encoding/json folds case. *)
Definition lower (s : string) : Prop := forall c, In c (list_ascii_of_string s) -> (nat_of_ascii c < 65 \/ 90 < nat_of_ascii c < 128)%nat.
Definition plain (d : jdoc) : Prop := NoDup (map fst d) /\ forall name, In name (map fst d) -> lower name.

(** A document is decoded into a structure member by member. *)
Definition decodes_members : Prop :=
  forall k raw d cl, payload raw = Some d -> plain d -> x_payload E k raw = Some cl ->
    reads_text d "iss" (c_iss cl) /\ reads_text d "sub" (c_sub cl) /\ reads_text d "aud" (c_aud cl) /\ reads_text d "jti" (c_jti cl) /\
    (~ In "cnf"%string (map fst d) -> c_cnf_jwk cl = None) /\
    (* a confirmation without the member jwk has no key *)
    (forall names key, In ("cnf"%string, JsObj names) d -> (forall n, In n names -> lower n) -> ~ In "jwk"%string names -> c_cnf_jwk cl <> Some (Some key)).
End Purpose.
