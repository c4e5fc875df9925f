(** * client/http.go: the key set cache and token introspection of the SDK client *)

From Verif Require Export Claims.

(** Fields jwks and jwksExpiration of the client (http.go:75-82). *)
Record client_state := mkClientState { cs_jwks : option (list jwk); cs_expiration : N }.

(** A client before its first request. *)
Definition fresh_client : client_state := mkClientState None 0.

(** The answer to the JWKS request: no usable document (network, status, syntax), or a
    document with the key set ([None] when it has no member "keys": the embedded pointer
    of claims.go:58-61 stays nil) and the member "exp", 0 when absent. *)
Inductive jwks_answer := JwksFails | JwksDoc (keys : option (list jwk)) (exp : N).

Inductive keys_result := KeysOk (keys : list jwk) (exp : N) | KeysErr | KeysPanic.

(** One call: [pk_now1] is the clock at the cache test, [pk_answer] what the server would
    answer, [pk_now2] the clock when the answer was decoded; in seconds. *)
Record keys_call := mkKeysCall { pk_now1 : N; pk_answer : jwks_answer; pk_now2 : N }.

(** http.go:430-487 PublicKeys.  The flag says whether the server was asked.  The URL of
    the server metadata is taken to be well formed. *)
Definition public_keys (st : client_state) (c : keys_call) : client_state * keys_result * bool :=
  let fetch :=
    match pk_answer c with
    | JwksFails => (st, KeysErr, true)
    | JwksDoc None _ => (st, KeysPanic, true)
    | JwksDoc (Some []) _ => (st, KeysErr, true)
    | JwksDoc (Some keys) exp =>
        if (0 <? exp)%N && (exp <? pk_now2 c)%N then (st, KeysErr, true)
        else (mkClientState (Some keys) exp, KeysOk keys exp, true)
    end in
  match cs_jwks st with
  | Some keys => if (pk_now1 c <? cs_expiration st)%N then (st, KeysOk keys (cs_expiration st), false) else fetch
  | None => fetch
  end.

(** Successive calls on one client. *)
Fixpoint run_keys (st : client_state) (cs : list keys_call) : list (keys_result * bool) :=
  match cs with
  | [] => []
  | c :: cs => let '(st, r, f) := public_keys st c in (r, f) :: run_keys st cs
  end.

(** The token that Introspect returns (http.go:417-427); [None] as metadata is a nil pointer. *)
Record rs_meta := mkRsMeta {
  rm_issuer : string; rm_subject : string; rm_client_id : string; rm_scope : string; rm_audience : string;
  rm_acr : option string; rm_auth_time : option N
}.
Record rs_token := mkRsToken {
  rt_active : bool; rt_meta : option rs_meta; rt_cnf : option string; rt_value : string
}.

(** encoding/json on a document whose members have the expected types: the value of a
    member, [None] when absent. *)
Fixpoint get (name : string) (d : doc) : option jval :=
  match d with
  | [] => None
  | (n, v) :: d => if String.eqb n name then Some v else get name d
  end.
Definition get_str (name : string) (d : doc) : string :=
  match get name d with Some (JStr s) => s | _ => "" end.
Definition get_bool (name : string) (d : doc) : bool :=
  match get name d with Some (JBool b) => b | _ => false end.

(** api/oidc/token/v1/token.pb.json.go:19-23, UnmarshalJSON of *TokenMeta: protojson's
    Unmarshal resets the message before it reads (token.pb.go:187-188, "*x = TokenMeta{}"),
    which through a nil receiver is a panic.  Otherwise it reads the members it knows, here
    with values of the expected types and under the names of the message, and skips the
    others. *)
Definition unmarshal_meta (receiver : option rs_meta) (d : doc) : outcome rs_meta :=
  match receiver with
  | None => Crashed
  | Some _ =>
      Done (mkRsMeta (get_str "issuer" d) (get_str "subject" d) (get_str "client_id" d) (get_str "scope" d)
              (get_str "audience" d)
              (match get "acr" d with Some (JStr s) => Some s | _ => None end)
              (match get "auth_time" d with Some (JNum n) => Some n | _ => None end))
  end.

(** claims.go:63-67: the structure that Introspect decodes into, and its zero value. *)
Record introspected := mkIntrospected { in_meta : option rs_meta; in_active : bool; in_cnf : option string }.
Definition zero_introspected : introspected := mkIntrospected None false None.

(** encoding/json on that structure.  It embeds *TokenMeta, so the method UnmarshalJSON of
    *TokenMeta is also a method of the structure: the decoder hands the whole document to
    it, and the fields Active and Confirmation are not looked at. *)
Definition unmarshal_introspected (t : introspected) (d : doc) : outcome introspected :=
  match unmarshal_meta (in_meta t) d with
  | Crashed => Crashed
  | Done m => Done (mkIntrospected (Some m) (in_active t) (in_cnf t))
  end.

(** http.go:405-427: decoding of the introspection response. *)
Definition introspect_decode (value : string) (d : doc) : outcome rs_token :=
  match unmarshal_introspected zero_introspected d with
  | Crashed => Crashed
  | Done t => Done (mkRsToken (in_active t) (in_meta t) (in_cnf t) value)
  end.

(** http.go:99-131 Assertion; [jti] is uniuri.NewLen(8), the clock in nanoseconds is read
    twice.  [sign] is the JOSE library with the client's key ([None] when it fails). *)
Definition client_assertion (sign : claims -> option string) (client_id issuer jti : string) (now1 now2 : N)
  : option string :=
  sign (mkClaims client_id client_id issuer jti (unix (now1 + 30 * second)) 0 (unix now2) None "" "" None).
