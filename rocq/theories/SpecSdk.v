(** * Vocabulary for the statements about the SDK *)

From Verif Require Export Strs Prog Base62 Verifiable Base64 StringArray Sdk.
Local Open Scope N_scope.

Fixpoint every_char (P : ascii -> Prop) (s : string) : Prop :=
  match s with EmptyString => True | String a r => P a /\ every_char P r end.

(** A letter a-z, A-Z or a digit 0-9. *)
Definition is_alnum (a : ascii) : Prop :=
  97 <= byte a <= 122 \/ 65 <= byte a <= 90 \/ 48 <= byte a <= 57.
Definition no_underscore (s : string) : Prop := every_char (fun a => byte a <> 95) s.

(** [u] and [m] have the lengths and characters of the two parts of a verifiable token. *)
Definition wrapped (u m : string) : Prop :=
  String.length u = 22%nat /\ every_char is_alnum u /\
  (String.length m = 59%nat \/ String.length m = 60%nat) /\ every_char is_alnum m.

(** [s] is a verifiable token with these parts: "prefix_" or nothing, the UUID, '_', and nonce
    and authentication code. *)
Definition spelled (s prefix u m : string) : Prop :=
  s = (prefix ++ u ++ "_" ++ m)%string /\ wrapped u m /\
  (prefix = ""%string \/ exists p, prefix = (p ++ "_")%string /\ no_underscore p).

(** The base62 numeral [text] and the big-endian bytes [b] denote the same number. *)
Definition denotes (text b : string) : Prop := num62 0 text = Some (be_num 0 b).

(** A character of the base64url alphabet. *)
Definition is_b64url (a : ascii) : Prop := is_alnum a \/ byte a = 45 \/ byte a = 95.

(** The characters of a string. *)
Fixpoint has_char (a : ascii) (s : string) : Prop :=
  match s with EmptyString => False | String b r => a = b \/ has_char a r end.

(** What uniuri.NewLenChars promises: [n] characters, each from the set. *)
Definition draws_from_charset (draw : nat -> string -> string) : Prop :=
  forall n charset, charset <> ""%string ->
    String.length (draw n charset) = n /\ every_char (fun a => has_char a charset) (draw n charset).

(** Only white space, in the sense of Unicode. *)
Definition only_space (s : string) : Prop := Forall (fun r => is_space r = true) (runes s).

(** The last value passed to State (or to Description) in a sequence of calls. *)
Definition last_state (calls : list builder_call) (default : string) : string :=
  fold_left (fun v c => match c with CallState w => w | _ => v end) calls default.
Definition last_description (calls : list builder_call) (default : string) : string :=
  fold_left (fun v c => match c with CallDescription w => w | _ => v end) calls default.

(** The code registered for each condition: RFC 6749 4.1.2.1 and 5.2, RFC 6750 3.1, RFC 7591
    3.2.2, RFC 8628 3.5, RFC 8707 2, RFC 9449 5 and RFC 9470 3. *)
Definition registered_code (c : condition) : string :=
  match c with
  | ServerError => "server_error"
  | InvalidRequest => "invalid_request"
  | InvalidScope => "invalid_scope"
  | InvalidGrant => "invalid_grant"
  | InvalidClient => "invalid_client"
  | UnauthorizedClient => "unauthorized_client"
  | UnsupportedGrantType => "unsupported_grant_type"
  | InvalidToken => "invalid_token"
  | AuthorizationPending => "authorization_pending"
  | Slowdown => "slow_down"
  | AccessDenied => "access_denied"
  | TokenExpired => "expired_token"
  | InvalidDPoPProof => "invalid_dpop_proof"
  | InvalidRedirectURI => "invalid_redirect_uri"
  | InvalidClientMetadata => "invalid_client_metadata"
  | InvalidSoftwareStatement => "invalid_software_statement"
  | UnapprovedSoftwareStatement => "unapproved_software_statement"
  | InvalidTarget => "invalid_target"
  | InsufficientUserAuthentication => "insufficient_user_authentication"
  end%string.
