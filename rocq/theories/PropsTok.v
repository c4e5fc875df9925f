(** * Signed tokens: the theorems

    Written by tools/gen_props.py: the statements are those of the lemmas proved in
    PfTok, PfTok2.
    Below each theorem, a concrete case that meets its hypotheses. *)

From Verif Require Import MeetTok.
Local Open Scope N_scope.

(** ** C48 JARM responses decode to what was encoded *)

Theorem C48_round_trip_partial : forall E dec pub sign k keys issuer r raw t1 t2,
  jose_works E dec pub sign -> In (pub k) keys -> k_use k <> "enc"%string ->
  jarm_encode (jwt_serialize sign "jarm+jwt" false (Some (KKey k))) issuer (Some r) t1 = Some raw -> raw <> ""%string ->
  jr_error r = None -> (jr_expires_in r <= 9000000000)%N -> (t1 + 9000000000 * second < 2 ^ 64)%N ->
  (unix t2 <= unix t1 + jr_expires_in r)%N ->
  jarm_decode E dec (Some keys) (jr_issuer r) (jr_client_id r) raw t2 =
  JOk (mkJarmResp None (jr_code r) (jr_state r) "" 0 (jr_issuer r)).
Proof. exact C48_round_trip_partial_proof. Qed.
Print Assumptions C48_round_trip_partial.
Example C48_round_trip_partial_met : exists E dec pub sign k keys issuer r raw t1 t2,
  jose_works E dec pub sign /\
  In (pub k) keys /\
  k_use k <> "enc"%string /\
  jarm_encode (jwt_serialize sign "jarm+jwt" false (Some (KKey k))) issuer (Some r) t1 = Some raw /\
  raw <> ""%string /\
  jr_error r = None /\
  (jr_expires_in r <= 9000000000)%N /\
  (t1 + 9000000000 * second < 2 ^ 64)%N /\
  (unix t2 <= unix t1 + jr_expires_in r)%N.
Proof.
  exists (jarm_ext); exists (jarm_dec); exists (public); exists (jarm_sign); exists (srv_key); exists ((other_key :: public srv_key :: nil)); exists (iss); exists (jarm_resp); eexists; exists (1000 * second); exists (1050 * second).
  meet.
  all: meet_tok.
Qed.

Theorem C48_long_lifetime_refuted : forall E dec pub sign k keys issuer r raw t1 t2,
  jose_works E dec pub sign -> In (pub k) keys -> k_use k <> "enc"%string ->
  jarm_encode (jwt_serialize sign "jarm+jwt" false (Some (KKey k))) issuer (Some r) t1 = Some raw -> raw <> ""%string ->
  jr_error r = None -> (17000000000 <= jr_expires_in r <= 18446744000)%N ->
  (* at any time from 2017 to 2262, and later *)
  (1500000000 * second <= t1 < 2 ^ 63)%N -> (t1 <= t2)%N ->
  jarm_decode E dec (Some keys) (jr_issuer r) (jr_client_id r) raw t2 = JFail (Some invalid_token_response).
Proof. exact C48_long_lifetime_refuted_proof. Qed.
Print Assumptions C48_long_lifetime_refuted.
Example C48_long_lifetime_refuted_met : exists E dec pub sign k keys issuer r raw t1 t2,
  jose_works E dec pub sign /\
  In (pub k) keys /\
  k_use k <> "enc"%string /\
  jarm_encode (jwt_serialize sign "jarm+jwt" false (Some (KKey k))) issuer (Some r) t1 = Some raw /\
  raw <> ""%string /\
  jr_error r = None /\
  (17000000000 <= jr_expires_in r <= 18446744000)%N /\
  (1500000000 * second <= t1 < 2 ^ 63)%N /\
  (t1 <= t2)%N.
Proof.
  exists (jarm_ext); exists (one_dec long_claims); exists (public); exists (one_sign long_claims); exists (srv_key); exists ((other_key :: public srv_key :: nil)); exists (iss); exists (long_resp); eexists; exists (1700000000 * second); exists (1700000000 * second).
  meet.
  all: meet_tok.
Qed.

Theorem C48_never_expires_refuted : forall E dec pub sign k keys issuer r raw t1 t2,
  jose_works E dec pub sign -> In (pub k) keys -> k_use k <> "enc"%string ->
  jarm_encode (jwt_serialize sign "jarm+jwt" false (Some (KKey k))) issuer (Some r) t1 = Some raw -> raw <> ""%string ->
  jr_error r = None -> (9223372037 <= jr_expires_in r)%N -> (t1 + jr_expires_in r * second < 2 ^ 64)%N ->
  (* however long after its lifetime *)
  (unix t2 <= 18000000000000000000)%N ->
  jarm_decode E dec (Some keys) (jr_issuer r) (jr_client_id r) raw t2 =
  JOk (mkJarmResp None (jr_code r) (jr_state r) "" 0 (jr_issuer r)).
Proof. exact C48_never_expires_refuted_proof. Qed.
Print Assumptions C48_never_expires_refuted.
Example C48_never_expires_refuted_met : exists E dec pub sign k keys issuer r raw t1 t2,
  jose_works E dec pub sign /\
  In (pub k) keys /\
  k_use k <> "enc"%string /\
  jarm_encode (jwt_serialize sign "jarm+jwt" false (Some (KKey k))) issuer (Some r) t1 = Some raw /\
  raw <> ""%string /\
  jr_error r = None /\
  (9223372037 <= jr_expires_in r)%N /\
  (t1 + jr_expires_in r * second < 2 ^ 64)%N /\
  (unix t2 <= 18000000000000000000)%N.
Proof.
  exists (jarm_ext); exists (one_dec wrap_claims); exists (public); exists (one_sign wrap_claims); exists (srv_key); exists ((other_key :: public srv_key :: nil)); exists (iss); exists (wrap_resp); eexists; exists (1700000000 * second); exists (99000000000 * second).
  meet.
  all: meet_tok.
Qed.

Theorem C48_error_round_trip_partial : forall E dec pub sign k keys issuer issuer' r raw t1 t2 audience code desc,
  jose_works E dec pub sign -> In (pub k) keys -> k_use k <> "enc"%string ->
  jarm_encode (jwt_serialize sign "jarm+jwt" false (Some (KKey k))) issuer (Some r) t1 = Some raw -> raw <> ""%string ->
  jr_error r = Some (code, desc) -> code <> ""%string -> audience <> ""%string ->
  jarm_decode E dec (Some keys) issuer' audience raw t2 = JOk (mkJarmResp (Some (code, desc)) "" "" "" 0 "").
Proof. exact C48_error_round_trip_partial_proof. Qed.
Print Assumptions C48_error_round_trip_partial.
Example C48_error_round_trip_partial_met : exists E dec pub sign k keys issuer r raw t1 audience code desc,
  jose_works E dec pub sign /\
  In (pub k) keys /\
  k_use k <> "enc"%string /\
  jarm_encode (jwt_serialize sign "jarm+jwt" false (Some (KKey k))) issuer (Some r) t1 = Some raw /\
  raw <> ""%string /\
  jr_error r = Some (code, desc) /\
  code <> ""%string /\
  audience <> ""%string.
Proof.
  exists (jarm_ext); exists (jarm_dec); exists (public); exists (jarm_sign); exists (srv_key); exists ([public srv_key]); exists (iss); exists (jarm_err); eexists; exists (1000 * second); exists ("app"%string); eexists; eexists.
  meet.
  all: meet_tok.
Qed.

Theorem C48_sdk_signer_refuted : forall E dec pub sign provider keys issuer issuer' r raw t1 t2 audience,
  jose_works E dec pub sign ->
  jarm_encode (jarm_signer sign provider) issuer r t1 = Some raw ->
  jarm_decode E dec keys issuer' audience raw t2 = JFail None.
Proof. exact C48_sdk_signer_refuted_proof. Qed.
Print Assumptions C48_sdk_signer_refuted.
Example C48_sdk_signer_refuted_met : exists E dec pub sign provider issuer r raw t1,
  jose_works E dec pub sign /\
  jarm_encode (jarm_signer sign provider) issuer r t1 = Some raw.
Proof.
  exists (jarm_ext); exists (jarm_dec); exists (public); exists (jarm_sign); exists (Some (KKey srv_key)); exists (iss); exists (Some jarm_resp); eexists; exists (1000 * second).
  meet.
  all: meet_tok.
Qed.

(** ** C49 JARM decoding only accepts responses for this client *)

Theorem C49_accepted_responses : forall E dec keys issuer audience raw now r,
  jarm_decode E dec keys issuer audience raw now = JOk r -> jr_error r = None ->
  exists ks t c, keys = Some ks /\ x_parse E raw = Some t /\ j_typ t = Some "jarm+jwt"%string /\
    verified_with E ks raw /\ dec raw = Some c /\
    jm_iss c = issuer /\ jm_aud c = audience /\ audience <> ""%string /\ (unix now <= jm_exp c)%N /\
    jr_code r = jm_code c /\ jr_state r = jm_state c /\ jr_issuer r = issuer.
Proof. exact C49_accepted_responses_proof. Qed.
Print Assumptions C49_accepted_responses.
Example C49_accepted_responses_met : exists E dec keys issuer audience raw now r,
  jarm_decode E dec keys issuer audience raw now = JOk r /\
  jr_error r = None.
Proof.
  exists (jarm_ext); exists (jarm_dec); exists (Some [public srv_key]); exists (iss); exists ("app"%string); exists ("good"%string); exists (1060 * second); eexists.
  meet.
  all: meet_tok.
Qed.

Theorem C49_error_responses_partial : forall E dec keys issuer audience raw now r e,
  jarm_decode E dec keys issuer audience raw now = JOk r -> jr_error r = Some e ->
  exists ks t c, keys = Some ks /\ x_parse E raw = Some t /\ j_typ t = Some "jarm+jwt"%string /\
    verified_with E ks raw /\ dec raw = Some c /\ e = (jm_error c, jm_description c) /\ jm_error c <> ""%string /\
    jr_code r = ""%string.
Proof. exact C49_error_responses_partial_proof. Qed.
Print Assumptions C49_error_responses_partial.
Example C49_error_responses_partial_met : exists E dec keys issuer audience raw now r e,
  jarm_decode E dec keys issuer audience raw now = JOk r /\
  jr_error r = Some e.
Proof.
  exists (jarm_ext); exists (jarm_dec); exists (Some [public srv_key]); exists (iss); exists ("app"%string); exists ("bad"%string); exists (1060 * second); eexists; eexists.
  meet.
  all: meet_tok.
Qed.

Theorem C49_error_responses_refuted : forall E dec keys raw t c issuer audience now,
  x_parse E raw = Some t -> j_typ t = Some "jarm+jwt"%string -> raw <> ""%string -> audience <> ""%string ->
  verified_with E keys raw -> dec raw = Some c -> jm_error c <> ""%string ->
  exists r, jarm_decode E dec (Some keys) issuer audience raw now = JOk r.
Proof. exact C49_error_responses_refuted_proof. Qed.
Print Assumptions C49_error_responses_refuted.
Example C49_error_responses_refuted_met : exists E dec keys raw t c audience,
  x_parse E raw = Some t /\
  j_typ t = Some "jarm+jwt"%string /\
  raw <> ""%string /\
  audience <> ""%string /\
  verified_with E keys raw /\
  dec raw = Some c /\
  jm_error c <> ""%string.
Proof.
  exists (jarm_ext); exists (jarm_dec); exists ([public srv_key]); exists ("bad"%string); eexists; eexists; exists ("other-app"%string).
  meet.
  all: meet_tok.
Qed.

(** ** C52 Introspection discloses claims only for usable tokens *)

Theorem C52_introspection_document : forall t m now1 now2, t_meta t = Some m ->
  exists d body,
    (forall ser, introspection_generate (Some ser) (Some t) now1 now2 = ser d) /\
    member "token_introspection" d = Some (JObj body) /\
    member "iss" d = Some (JStr (m_issuer m)) /\ member "iat" d = Some (JNum now2) /\
    ((usable_at t now1 /\ member "active" body = Some (JBool true) /\
      member "iss" body = Some (JStr (m_issuer m)) /\ member "sub" body = Some (JStr (m_subject m)) /\
      member "aud" body = Some (JStr (m_audience m)) /\ member "client_id" body = Some (JStr (m_client_id m)) /\
      member "scope" body = Some (JStr (m_scope m)) /\ member "iat" body = Some (JNum (m_issued_at m)) /\
      member "exp" body = Some (JNum (m_expires_at m)) /\ member "jti" body = Some (JStr (t_id t))) \/
     (~ usable_at t now1 /\ body = [("active", JBool false)])).
Proof. exact C52_introspection_document_proof. Qed.
Print Assumptions C52_introspection_document.
Example C52_introspection_document_met : t_meta a_token = Some a_meta /\ usable_at a_token 1001 /\ usable_at a_token 4600 /\
  ~ usable_at a_token 1000 /\ ~ usable_at a_token 4601.
Proof.
  assert (H : forall n, usable_at a_token n <-> (1001 <= n <= 4600)).
  { intros n. unfold usable_at. split.
    - intros (_ & m & [= <-] & A). exact A.
    - intros A. split; [reflexivity|]. exists a_meta. split; [reflexivity|exact A]. }
  rewrite !H. split; [reflexivity|]. lia.
Qed.

(** ** C53 Issued JWT claims are well formed *)

Theorem C53_access_token_claims : forall K t now,
  (forall ser, access_token_generate K ser t now = None) \/
  exists tk c, t = Some tk /\ (forall ser, access_token_generate K (Some ser) t now = ser c) /\
    well_formed 7200 now c /\ describes tk c /\ jc_cnf c = t_cnf tk.
Proof. exact C53_access_token_claims_proof. Qed.
Print Assumptions C53_access_token_claims.
Example C53_access_token_claims_met : exists c, jc_sub c = "alice"%string /\ jc_cnf c = Some "thumb"%string /\
  forall ser, access_token_generate all_checks (Some ser) (Some a_token) 2000 = ser c.
Proof. eexists. split; [|split; [|reflexivity]]; reflexivity. Qed.

Theorem C53_refresh_token_claims_partial : forall K t now,
  (forall ser, refresh_token_generate K ser t now = None) \/
  exists tk c, t = Some tk /\ (forall ser, refresh_token_generate K (Some ser) t now = ser c) /\
    well_formed 1209600 now c /\ describes tk c.
Proof. exact C53_refresh_token_claims_partial_proof. Qed.
Print Assumptions C53_refresh_token_claims_partial.
Example C53_refresh_token_claims_partial_met : exists c, jc_sub c = "alice"%string /\
  forall ser, refresh_token_generate all_checks (Some ser) (Some a_token) 2000 = ser c.
Proof. eexists. split; [|reflexivity]; reflexivity. Qed.

Theorem C53_refresh_confirmation_refuted : forall K t now c,
  (forall ser, refresh_token_generate K (Some ser) (Some t) now = ser c) -> jc_cnf c = None.
Proof. exact C53_refresh_confirmation_refuted_proof. Qed.
Print Assumptions C53_refresh_confirmation_refuted.
Example C53_refresh_confirmation_refuted_met : exists c, t_cnf a_token <> None /\
  forall ser, refresh_token_generate all_checks (Some ser) (Some a_token) 2000 = ser c.
Proof. eexists. split; [discriminate|reflexivity]. Qed.

(** ** C54 Signature verification uses a proper key *)

Theorem C54_verifier : forall A E (dec : string -> option A) keys raw c,
  verifier_claims E dec (Some keys) raw = Some c <-> verified_with E keys raw /\ dec raw = Some c.
Proof. exact C54_verifier_proof. Qed.
Print Assumptions C54_verifier.
Example C54_verifier_met : verified_with jarm_ext [other_key; public srv_key] "good" /\ jarm_dec "good" = Some jarm_good /\
  ~ verified_with jarm_ext [other_key] "good" /\
  ~ verified_with jarm_ext [mkJwk "srv-1" "enc" "public-srv-key"; mkJwk "srv-9" "sig" "public-srv-key"] "good".
Proof.
  split; [exists (mkJws (Some "jarm+jwt"%string) "srv-1" None), (public srv_key); repeat split; auto;
          [right; left; reflexivity|discriminate]|].
  split; [reflexivity|]. split.
  - intros (t & k & _ & [<-|[]] & _ & _ & H). discriminate H.
  - intros (t & k & Hp & [<-|[<-|[]]] & Hu & Hk & _); [apply Hu; reflexivity|].
    injection Hp as <-. destruct Hk as [Hk|Hk]; discriminate Hk.
Qed.

Theorem C54_provider_failure : forall A E (dec : string -> option A) raw,
  verifier_claims E dec None raw = None.
Proof. exact C54_provider_failure_proof. Qed.
Print Assumptions C54_provider_failure.

Theorem C54_signature : forall E keys raw,
  validate_signature E keys raw = true <->
  exists k, In k keys /\ k_use k <> "enc"%string /\ x_verify E k raw = true.
Proof. exact C54_signature_proof. Qed.
Print Assumptions C54_signature.
Example C54_signature_met : validate_signature jarm_ext [other_key; public srv_key] "good" = true /\
  validate_signature jarm_ext [mkJwk "srv-1" "enc" "public-srv-key"] "good" = false.
Proof. split; vm_compute; reflexivity. Qed.

Theorem C54_validate_token : forall A E (dec : string -> option A) keys raw c,
  validate_token E dec keys raw = Some c <->
  (exists k, In k keys /\ k_use k <> "enc"%string /\ x_verify E k raw = true) /\ dec raw = Some c.
Proof. exact C54_validate_token_proof. Qed.
Print Assumptions C54_validate_token.
Example C54_validate_token_met : validate_token jarm_ext jarm_dec [other_key; public srv_key] "bad" = Some jarm_bad /\
  validate_token jarm_ext jarm_dec [other_key] "bad" = None.
Proof. split; vm_compute; reflexivity. Qed.

(** ** C80 DPoP proofs made with the SDK are accepted by the server *)

Theorem C80_honest_proof_accepted_partial : forall E w xs i o pub sign clean k htm htu tv tc jti made proof th,
  (* the JOSE library works; the proof is made by the SDK's prover with a signer that sets the
     type "dpop+jwt"; the URL has neither query nor fragment *)
  jose_works E (x_payload E KDpop) pub sign ->
  dpop_prove E clean (Some (jwt_serialize sign "dpop+jwt" true (Some (KKey k)))) htm htu tv jti made = Some proof ->
  proof <> ""%string -> clean htu = x_url_string E htu -> x_url_string E htu <> ""%string ->
  x_thumb E (pub k) = Some th -> (tc = None \/ tc = Some (b64url th)) ->
  (* the verification runs at most 15 seconds before or after that, without faults *)
  blank w -> no_faults xs ->
  (made <= unix (w_now w + 15 * second))%N -> (unix (clock w (history E w xs) - 15 * second) <= made)%N ->
  (* and no other request registers a proof with this id *)
  (forall j a, In (EvCall j (CProofReg (b64url (x_blake E "" jti))) a) (history E w xs) -> j = i) ->
  In (EvStart i (RDpop htm htu proof tv tc)) (history E w xs) -> In (EvDone i o) (history E w xs) ->
  o = Done (PDpop (Some (b64url th))).
Proof. exact C80_honest_proof_accepted_partial_proof. Qed.
Print Assumptions C80_honest_proof_accepted_partial.
Example C80_honest_proof_accepted_partial_met : exists E w xs i o pub sign clean k htm htu tv tc jti made proof th,
  jose_works E (x_payload E KDpop) pub sign /\
  dpop_prove E clean (Some (jwt_serialize sign "dpop+jwt" true (Some (KKey k)))) htm htu tv jti made = Some proof /\
  proof <> ""%string /\
  clean htu = x_url_string E htu /\
  x_url_string E htu <> ""%string /\
  x_thumb E (pub k) = Some th /\
  (tc = None \/ tc = Some (b64url th)) /\
  blank w /\
  no_faults xs /\
  (made <= unix (w_now w + 15 * second))%N /\
  (unix (clock w (history E w xs) - 15 * second) <= made)%N /\
  (forall j a, In (EvCall j (CProofReg (b64url (x_blake E "" jti))) a) (history E w xs) -> j = i) /\
  In (EvStart i (RDpop htm htu proof tv tc)) (history E w xs) /\
  In (EvDone i o) (history E w xs).
Proof.
  exists (dpop_ext); exists (w0); exists (x_proved); exists (0%nat); eexists; exists (public); exists (dpop_sign); exists ((fun s => s)); exists (holder_key); exists ("POST"%string); exists (tok_url); exists (None); exists (None); exists ("jti-1"%string); exists (1005); exists ("good"%string); eexists.
  meet.
  all: try (left; reflexivity).
  all: meet_tok.
Qed.

Theorem C80_sdk_signer_refuted : forall E pub sign clean provider htm htu tv jti made proof htm' htu' tv' tc tr o,
  jose_works E (x_payload E KDpop) pub sign ->
  dpop_prove E clean (Some (dpop_signer sign provider)) htm htu tv jti made = Some proof ->
  runs (dpop_verify E htm' htu' proof tv' tc) tr o -> o = Done None.
Proof. exact C80_sdk_signer_refuted_proof. Qed.
Print Assumptions C80_sdk_signer_refuted.
Example C80_sdk_signer_refuted_met : exists E pub sign clean provider htm htu tv jti made proof htm' htu' tv' tc tr o,
  jose_works E (x_payload E KDpop) pub sign /\
  dpop_prove E clean (Some (dpop_signer sign provider)) htm htu tv jti made = Some proof /\
  runs (dpop_verify E htm' htu' proof tv' tc) tr o.
Proof.
  exists (dpop_ext); exists (public); exists (dpop_sign); exists ((fun s => s)); exists (Some (KKey holder_key)); exists ("POST"%string); exists (tok_url); exists (None); exists ("jti-1"%string); exists (1005); exists ("sdk"%string); exists ("POST"%string); exists (tok_url); exists (None); exists (None); exists ([]); exists (Done None).
  meet.
  all: try meet_tok.
  constructor.
Qed.
