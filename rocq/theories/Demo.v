(** * A concrete world, used to show that hypotheses can be met and to refute claims

    Nothing here models code of the repository: it fixes one possible behaviour of the
    external functions, three registered clients and the answers of the generators. *)

From Verif Require Export Spec.

Definition starts_with (p s : string) : bool := String.prefix p s.

(** A stand-in for sha256 with 32-byte results and for blake2b without collisions. *)
Definition demo_sha (s : string) : string :=
  substring 0 32 (s ++ "................................")%string.
Definition demo_blake (key s : string) : string := s.

Definition app_key := mkJwk "app-1" "sig" "app-key".
Definition enc_key := mkJwk "app-2" "enc" "app-key".
Definition att_key := mkJwk "att-1" "sig" "attester-key".
Definition dev_key := mkJwk "dev-1" "sig" "instance-key".

(** "Signed documents": strings with a fixed reading. *)
Definition demo_parse (s : string) : option jws :=
  if String.eqb s "proof" then Some (mkJws (Some "dpop+jwt") "" (Some dev_key))
  else if String.eqb s "pop" then Some (mkJws None "" None)
  else if String.eqb s "assertion" then Some (mkJws None "app-1" None)
  else None.

Definition demo_claims (k : claims_kind) (s : string) : option claims :=
  match k with
  | KAssertion =>
      if String.eqb s "assertion"
      then Some (mkClaims "app" "app" "https://as.example" "jti-1" 2000 0 0 None "" "" None) else None
  | KAttestation =>
      if String.eqb s "attestation"
      then Some (mkClaims "attester" "app" "" "" 2000 0 0 (Some (Some dev_key)) "" "" None) else None
  | KPop =>
      if String.eqb s "pop"
      then Some (mkClaims "app" "" "https://as.example" "jti-2" 2000 0 0 None "" "" None)
      else if String.eqb s "pop-evil"
      then Some (mkClaims "evil" "" "https://as.example" "jti-2" 2000 0 0 None "" "" None) else None
  | KDpop =>
      if String.eqb s "proof"
      then Some (mkClaims "" "" "" "jti-3" 0 0 1000 None "POST" "https://as.example/token"
                   (Some (b64url (demo_sha "token-value")))) else None
  end.

Definition demo_verify (k : jwk) (s : string) : bool :=
  (String.eqb (k_mat k) "app-key" && String.eqb s "assertion")
  || (String.eqb (k_mat k) "attester-key" && String.eqb s "attestation")
  || (String.eqb (k_mat k) "instance-key" && (String.eqb s "pop" || String.eqb s "pop-evil" || String.eqb s "proof")).

Definition demo_ext : ext := mkExt fold_ascii demo_sha demo_blake
  (starts_with "https://") (fun s => s) (starts_with "urn:solid:") (fun s => s)
  demo_parse (fun _ => true) (fun _ => true) demo_verify demo_claims
  (fun s => if String.eqb s "app-jwks" then Some [enc_key; app_key]
            else if String.eqb s "attester-jwks" then Some [att_key] else None)
  (fun k => Some ("thumb:" ++ k_mat k)%string).

Definition iss := "https://as.example".
Definition cb := "https://app.example/cb".

Definition all_grants : list string :=
  ["authorization_code"; "client_credentials"; "refresh_token";
   "urn:ietf:params:oauth:grant-type:device_code"; "urn:ietf:params:oauth:grant-type:token-exchange"].

Definition webapp : client :=
  mkClient "app" CtConfidential [cb] ["code"; "token"] ["query"; "query.jwt"] all_grants "App" "app-jwks" "" "" false.
(** Another client that registered the same redirect URI. *)
Definition evil : client :=
  mkClient "evil" CtConfidential [cb] ["code"] ["query"] all_grants "Evil" "" "" "" false.
Definition attester : client :=
  mkClient "attester" CtConfidential [] [] [] [] "Attester" "attester-jwks" "" "" false.
Definition spa : client :=
  mkClient "spa" CtPublic ["https://spa.example/cb"] ["code"] ["query"] ["authorization_code"] "Spa" "" "" "" false.

Definition demo_clients : fmap client :=
  upd (upd (upd (upd empty "app" (Some webapp)) "evil" (Some evil)) "attester" (Some attester)) "spa" (Some spa).

(** 1000 s after the epoch. *)
Definition w0 : world := init_world (1000 * second) demo_clients.

(** The same with a store that fills in expiry and status of device sessions. *)
Definition w0s : world :=
  mkWorld (1000 * second) demo_clients example_resources (stamping 120)
    empty empty empty empty empty empty empty.

Lemma registry_demo : registry_ok w0.
Proof.
  intros id c. cbn. unfold demo_clients, upd, empty.
  repeat match goal with |- context[String.eqb id ?x] => destruct (String.eqb_spec id x) as [->|_] end;
    intros H; inversion H; reflexivity.
Qed.
Lemma blank_w0 : blank w0.
Proof. repeat split; reflexivity. Qed.
Lemma blank_w0s : blank w0s.
Proof. repeat split; reflexivity. Qed.
Lemma stamp_w0 : stamp_ok w0.
Proof. intros t [cl is ex rq st dc su sc au]. exists ex, st. auto. Qed.
Lemma stamp_w0s : stamp_ok w0s.
Proof. intros t [cl is ex rq st dc su sc au]. exists (unix t + 120)%N, DsPending. auto. Qed.

(** Requests *)
Definition verifier := "verifier-verifier-verifier-verifier-verifier-1".
Definition challenge := b64url (demo_sha verifier).
Definition state := "state-state-state-state-state-state-1".

Definition areq (scope : string) (prompt : option string) : authreq :=
  mkAuthReq scope "code" "app" cb state (Some "jwt") "nonce-nonce" prompt None None challenge "S256"
    "https://api.example" "".

Definition authz (scope : string) (prompt : option string) : request :=
  RAuthorize (Some (mkAuthzReq iss "alice" (Some (areq scope prompt)))).

Definition tokreq (c : client) (gt : string) (g : grant) : token_request :=
  mkTokReq iss (Some c) gt None (Some "jkt") None g.
Definition redeem (c : client) (code : string) : token_request :=
  tokreq c "authorization_code" (GAuthorizationCode code cb verifier).
Definition ccreq (c : client) : token_request :=
  mkTokReq iss (Some c) "client_credentials" (Some "read") None (Some "api") GClientCredentials.
Definition refreshreq (c : client) (v : string) : token_request := tokreq c "refresh_token" (GRefreshToken v).
Definition exchangereq (c : client) (v : string) (scope : option string) : token_request :=
  mkTokReq iss (Some c) "urn:ietf:params:oauth:grant-type:token-exchange" scope None
    (Some "urn:example:backend-api") (GTokenExchange v "urn:ietf:params:oauth:token-type:access_token").
Definition pollreq (c : client) (code : string) : token_request :=
  tokreq c "urn:ietf:params:oauth:grant-type:device_code" (GDeviceCode code).

(** [go i os]: request [i] makes its next calls with these answers. *)
Definition go (i : nat) (os : list orc) : list sched := map (SStep i) os.
(** A new request, numbered [i], run to the end. *)
Definition full (i : nat) (r : request) (os : list orc) : list sched := SNew r :: go i (os ++ [ok]).

(** client, generator, session *)
Definition os_authz (code : string) : list orc := [ok; say code; ok].
(** clock, random id, generator, storage *)
Definition os_tok (id value : string) : list orc := [ok; say id; say value; ok].

Definition all_scope := "openid profile offline_access".

(** alice authorizes app: code "code-1" *)
Definition x_authz : list sched := full 0 (authz all_scope (Some "consent")) (os_authz "code-1").
(** app redeems it: tokens "at-1" and "rt-1" *)
Definition x_code : list sched :=
  (x_authz ++ full 1 (RToken (Some (redeem webapp "code-1")))
     ([ok; ok; ok] ++ os_tok "id-1" "at-1" ++ os_tok "id-2" "rt-1"))%list.

(** What request [i] was answered. *)
Definition answers (i : nat) (h : list event) : list (outcome response) :=
  flat_map (fun e => match e with EvDone j o => if Nat.eqb j i then [o] else [] | _ => [] end) h.

Lemma answers_in i h o l : answers i h = (o :: l)%list -> In (EvDone i o) h.
Proof.
  intros H. assert (In o (answers i h)) as Hin by (rewrite H; left; auto).
  unfold answers in Hin. apply in_flat_map in Hin as (e & He & Ho).
  destruct e as [|?? |j o'|]; try destruct Ho.
  destruct (Nat.eqb_spec j i); [|destruct Ho]. destruct Ho as [->|[]]. subst. auto.
Qed.

Definition token_answer (i : nat) (h : list event) : option token_response :=
  match answers i h with Done (PToken r) :: _ => Some r | _ => None end.

Lemma token_ok_demo h i req res :
  nth_error (filter (fun e => match e with EvStart _ _ => true | _ => false end) h) i
    = Some (EvStart i (RToken (Some req))) ->
  token_answer i h = Some res -> tr_err res = false -> token_ok h i req res.
Proof.
  intros H1 H2 H3. unfold token_answer in H2.
  destruct (answers i h) as [|[[]|] l] eqn:Ha; try discriminate. injection H2 as ->.
  split; auto. split; [|eapply answers_in; eauto].
  apply nth_error_In in H1. apply filter_In in H1. tauto.
Qed.

(** The requests of a history, in order of arrival. *)
Definition starts (h : list event) : list event :=
  filter (fun e => match e with EvStart _ _ => true | _ => false end) h.

Lemma started_demo h i j r : nth_error (starts h) i = Some (EvStart j r) -> In (EvStart j r) h.
Proof. intros H. apply nth_error_In in H. apply filter_In in H. tauto. Qed.
