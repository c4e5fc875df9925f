(** * Vocabulary for the statements about signed authorization requests *)

From Verif Require Export JsonReq.
From Coq Require Export Permutation.

(** What protojson guarantees of the reader of 64-bit numbers. *)
Definition reads_back (read_u64 : string -> option N) : Prop := forall n, (n < 2 ^ 64)%N -> read_u64 (decimal n) = Some n.

(** The verifier gives the claims that were signed (a map: the order of its members is lost). *)
Definition verifies (verify : string -> option (list (string * json))) (sign : list (string * json) -> option string) : Prop :=
  forall d raw, sign d = Some raw -> raw <> ""%string /\ exists d', Permutation d d' /\ verify raw = Some d'.

(** Every string of the request. *)
Definition strings (r : request) : list string :=
  flat_map (fun v => match v with VStr s => [s] | VOpt (Some s) => [s] | VList l => l | _ => [] end) (values r).

(** The JSON value [j] stands for the value [v] of a member that is set. *)
Definition says (read_u64 : string -> option N) (j : json) (v : value) : Prop :=
  match v with
  | VStr s => j = JsStr s
  | VOpt (Some s) => j = JsStr s
  | VNum (Some n) => exists t, (j = JsStr t \/ j = JsNum t) /\ read_u64 t = Some n
  | VList l => j = JsList (map JsStr l)
  | VOpt None | VNum None => False
  end.
(** A member that is not set. *)
Definition unset (v : value) : Prop := v = VStr "" \/ v = VOpt None \/ v = VNum None \/ v = VList [].

(** Claims that tokens of other kinds carry, and request objects of RFC 9101. *)
Definition foreign_claims : list string := ["aud"; "sub"; "exp"; "nbf"; "iat"; "jti"; "htm"; "htu"; "cnf"]%string.

(** The members of a request: the name that is written, the other name that is read, the value. *)
Definition members (r : request) : list (string * string * value) :=
  [("scope", "scope", VStr (rq_scope r)); ("response_type", "responseType", VStr (rq_response_type r));
   ("client_id", "clientId", VStr (rq_client_id r)); ("redirect_uri", "redirectUri", VStr (rq_redirect_uri r));
   ("state", "state", VStr (rq_state r)); ("response_mode", "responseMode", VOpt (rq_response_mode r));
   ("nonce", "nonce", VStr (rq_nonce r)); ("display", "display", VOpt (rq_display r)); ("prompt", "prompt", VOpt (rq_prompt r));
   ("max_age", "maxAge", VNum (rq_max_age r)); ("ui_locales", "uiLocales", VOpt (rq_ui_locales r));
   ("id_token_hint", "idTokenHint", VOpt (rq_id_token_hint r)); ("acr_values", "acrValues", VOpt (rq_acr_values r));
   ("request", "request", VOpt (rq_request r)); ("request_uri", "requestUri", VOpt (rq_request_uri r));
   ("code_challenge", "codeChallenge", VStr (rq_code_challenge r));
   ("code_challenge_method", "codeChallengeMethod", VStr (rq_code_challenge_method r)); ("audience", "audience", VStr (rq_audience r));
   ("dpop_proof", "dpopProof", VOpt (rq_dpop_proof r)); ("resource", "resource", VList (rq_resource r)); ("iss", "iss", VOpt (rq_iss r));
   ("login_hint_token", "loginHintToken", VOpt (rq_login_hint_token r)); ("login_hint", "loginHint", VOpt (rq_login_hint r))]%string.

(** How a value that is set is written: numbers as strings. *)
Definition written (v : value) (j : json) : Prop :=
  match v with
  | VStr s | VOpt (Some s) => j = JsStr s
  | VNum (Some n) => j = JsStr (decimal n)
  | VList l => j = JsList (map JsStr l)
  | VOpt None | VNum None => False
  end.
