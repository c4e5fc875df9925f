(** * A concrete HTTP server: shows that hypotheses can be met and refutes claims

    Nothing here models code of the repository. *)

From Verif Require Export Demo SpecHttp MeetTok.

Definition evil_key := mkJwk "evil-1" "sig" "evil-key".
Definition new_key := mkJwk "new-1" "sig" "new-key".

Definition web_parse (s : string) : option jws :=
  if str_in s ["proof-2"] then Some (mkJws (Some "dpop+jwt") "" (Some new_key))
  else if str_in s ["proof-3"; "proof-par"; "proof-par2"] then Some (mkJws (Some "dpop+jwt") "" (Some dev_key))
  else if str_in s ["req-app"; "req-app-fragment"; "req-app-plain"; "req-by-uri"] then Some (mkJws None "app-1" None)
  else if str_in s ["req-evil"] then Some (mkJws None "" None)
  else if String.eqb s "attestation" then Some (mkJws None "" None)
  else if str_in s ["assertion-2"; "sdk-assertion"] then Some (mkJws None "app-1" None)
  else demo_parse s.
Definition web_claims (k : claims_kind) (s : string) : option claims :=
  match k with
  | KDpop =>
      if String.eqb s "proof-2"
      then Some (mkClaims "" "" "" "jti-4" 0 0 1000 None "POST" "https://as.example/token" None)
      else if String.eqb s "proof-3"
      then Some (mkClaims "" "" "" "jti-5" 0 0 1000 None "GET" "https://api.example/data"
                   (Some (b64url (demo_sha "at-1"))))
      else if String.eqb s "proof-par"
      then Some (mkClaims "" "" "" "jti-6" 0 0 1000 None "POST" "https://as.example/par" None)
      else if String.eqb s "proof-par2"
      then Some (mkClaims "" "" "" "jti-8" 0 0 1000 None "POST" "https://as.example/par" None)
      else demo_claims k s
  | KAssertion =>
      if String.eqb s "assertion-2"
      then Some (mkClaims "app" "app" "https://as.example" "jti-7" 700000 0 0 None "" "" None)
      else if String.eqb s "sdk-assertion"
      then Some (mkClaims "app" "app" "https://as.example" "jti-9" 1030 0 1000 None "" "" None)
      else demo_claims k s
  | _ => demo_claims k s
  end.
Definition web_verify (k : jwk) (s : string) : bool :=
  (String.eqb (k_mat k) "app-key" && str_in s ["assertion-2"; "sdk-assertion"; "req-app"; "req-app-fragment"; "req-app-plain"; "req-by-uri"])
  || (String.eqb (k_mat k) "evil-key" && String.eqb s "req-evil")
  || (String.eqb (k_mat k) "new-key" && String.eqb s "proof-2")
  || (String.eqb (k_mat k) "instance-key" && str_in s ["proof-3"; "proof-par"; "proof-par2"])
  || demo_verify k s.
Definition web_ext : ext := mkExt fold_ascii demo_sha demo_blake
  (starts_with "https://") (fun s => s) (starts_with "urn:solid:") (fun s => s)
  web_parse (fun _ => true) (fun _ => true) web_verify web_claims
  (fun s => if String.eqb s "evil-jwks" then Some [evil_key] else x_jwks demo_ext s)
  (fun k => Some ("thumb:" ++ k_mat k)%string).

(** The payloads of the signed requests. *)
Definition with_mode (r : authreq) (m : option string) : authreq := set_response_mode r m.
Definition web_dec (s : string) : option authreq :=
  if String.eqb s "req-app" then Some (areq "openid profile offline_access" (Some "consent"))
  else if String.eqb s "req-app-fragment" then Some (with_mode (areq "openid" None) (Some "fragment.jwt"))
  else if String.eqb s "req-app-plain" then Some (areq "profile" None)
  else if String.eqb s "req-evil" then Some (areq "openid" None)
  else if String.eqb s "req-by-uri"
  then Some (mkAuthReq "" "" "app" "" "" None "" None None (Some "urn:solid:1") "" "" "" "")
  else None.

Definition web_salt := "salt-salt-salt-salt".
Definition web_server : http_server := mkServer web_ext iss web_dec (fun _ => Some "jarm"%string) web_salt.

(** The client: DPoP-bound or not, pairwise subjects. *)
Definition modes := ["query.jwt"; "fragment.jwt"; "query"].
Definition happ (bound : bool) : client :=
  mkClient "app" CtConfidential [cb] ["code"; "token"] modes all_grants "App" "app-jwks" "pairwise" "app.example" bound.
Definition hevil : client :=
  mkClient "evil" CtConfidential [cb] ["code"] modes all_grants "Evil" "evil-jwks" "public" "" false.
Definition hspa : client :=
  mkClient "spa" CtPublic ["https://spa.example/cb"] ["code"] modes all_grants "Spa" "" "" "" false.
Definition web_clients (bound : bool) : fmap client :=
  upd (upd (upd (upd empty "app" (Some (happ bound))) "evil" (Some hevil)) "spa" (Some hspa)) "attester" (Some attester).
Definition web_world (bound : bool) : world := init_world (1000 * second) (web_clients bound).

Lemma registry_web b : registry_ok (web_world b).
Proof.
  intros id c. cbn. unfold web_clients, upd, empty.
  repeat match goal with |- context[String.eqb id ?x] => destruct (String.eqb_spec id x) as [->|_] end;
    intros H; inversion H; reflexivity.
Qed.
Lemma blank_web b : blank (web_world b).
Proof. repeat split; reflexivity. Qed.

(** Requests *)
Fixpoint param (l : list (string * string)) (k : string) : list string :=
  match l with [] => [] | (n, v) :: l => if String.eqb n k then v :: param l k else param l k end.
Definition header (l : list (string * string)) (k : string) : string := first (param l k).
Definition post (path : string) (query body headers : list (string * string)) : http_request :=
  mkHttp "POST" (param query) (param body) (header headers) None true "as.example" path.
Definition get_as (user : string * string) (path : string) (query : list (string * string)) : http_request :=
  mkHttp "GET" (param query) (param []) (header []) (Some user) true "as.example" path.

Definition auth_params := [("client_assertion_type", assertion_bearer); ("client_assertion", "assertion")].
Definition authorize_r (client request : string) : http_request :=
  get_as ("hello", "world") "/authorize" [("client_id", client); ("request", request)].
Definition redeem_r (dpop : list (string * string)) : http_request :=
  post "/token" [] (auth_params ++ [("grant_type", "authorization_code"); ("code", "code-1");
    ("redirect_uri", cb); ("code_verifier", verifier)])%list dpop.
Definition refresh_r (dpop : list (string * string)) : http_request :=
  post "/token" [] (auth_params ++ [("grant_type", "refresh_token"); ("refresh_token", "rt-1")])%list dpop.
Definition token_r (path value : string) : http_request :=
  post path [] (auth_params ++ [("token", value)])%list [].
Definition par_r : http_request :=
  post "/par" [("request", "req-app")] auth_params [("DPoP", "proof-par")].
Definition device_r : http_request :=
  post "/device_authorization" [("client_id", "spa")] [("client_id", "app")] [].

(** A new request, numbered [i], run to the end. *)
Definition hgo (i : nat) (os : list orc) : list hsched := map (HStep i) os.
Definition hfull (i : nat) (e : endpoint) (r : http_request) (os : list orc) : list hsched :=
  HNew e r :: hgo i (os ++ [ok]).

(** client, then client, code generator, session, clock *)
Definition os_authorize (code : string) : list orc := [ok; ok; say code; ok; ok].
Definition os_assertion : list orc := [ok; ok].
Definition os_proof : list orc := [ok; ok; ok; ok].
Definition dpop1 := [("DPoP", "proof")].
Definition dpop2 := [("DPoP", "proof-2")].

Definition x_http_code : list hsched :=
  (hfull 0 EAuthorize (authorize_r "app" "req-app") (os_authorize "code-1") ++
   hfull 1 EToken (redeem_r dpop1)
     (os_assertion ++ os_proof ++ [ok; ok; ok] ++ os_tok "id-1" "at-1" ++ os_tok "id-2" "rt-1" ++ [ok]))%list.
(** The tokens are bound to one key; the refresh is made with the proof of another. *)
Definition x_http_refresh : list hsched :=
  (x_http_code ++
   hfull 2 EToken (refresh_r dpop2)
     (os_assertion ++ os_proof ++ [ok; ok; ok] ++ os_tok "id-3" "at-2" ++ [ok]))%list.
(** The refresh is made without a proof. *)
Definition x_http_bearer : list hsched :=
  (x_http_code ++
   hfull 2 EToken (refresh_r [])
     (os_assertion ++ [ok; ok; ok] ++ os_tok "id-3" "at-2" ++ [ok]))%list.
Definition x_http_evil : list hsched := hfull 0 EAuthorize (authorize_r "evil" "req-evil") (os_authorize "code-1").
Definition x_http_fragment : list hsched := hfull 0 EAuthorize (authorize_r "app" "req-app-fragment") (os_authorize "code-1").
Definition x_http_device : list hsched := hfull 0 EDeviceAuthorize device_r [ok; ok; say "device-code"; say "user-code"; ok].
Definition x_http_par : list hsched :=
  (hfull 0 EPar par_r (os_assertion ++ os_proof ++ [ok; say "urn:solid:1"; ok]) ++
   hfull 1 EAuthorize (authorize_r "app" "req-by-uri") [ok; ok; ok; ok; say "code-1"; ok; ok])%list.
Definition x_http_revoke : list hsched := hfull 0 ERevoke (token_r "/revoke" "nonsense") (os_assertion ++ [ok; ok]).
Definition x_http_plain : list hsched :=
  (hfull 0 EAuthorize (authorize_r "app" "req-app-plain") (os_authorize "code-1") ++
   hfull 1 EToken (redeem_r dpop1) (os_assertion ++ os_proof ++ [ok; ok; ok]))%list.

Definition dones (h : list hevent) : list hevent :=
  filter (fun e => match e with HvDone _ _ => true | _ => false end) h.
