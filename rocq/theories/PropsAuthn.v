(** * Client authentication and DPoP: the theorems

    Written by tools/gen_props.py: the statements are those of the lemmas proved in
    PfCompare, PfAuthn.
    Below each theorem, a concrete case that meets its hypotheses. *)

From Verif Require Import Meet.

(** ** C32 private_key_jwt authenticates only the key holder *)

Theorem C32_private_key_jwt : forall E w xs i req res,
  answered (history E w xs) i (RAssertion (Some req)) (PAuthn res) -> aa_err res = false ->
  exists a cl c keys k h1 h2,
    aq_type req = Some "urn:ietf:params:oauth:client-assertion-type:jwt-bearer"%string /\
    aq_assertion req = Some a /\ x_payload E KAssertion a = Some cl /\
    aa_client res = Some c /\ w_clients w (c_iss cl) = Some c /\
    (registry_ok w -> c_iss cl = cl_id c /\ c_sub cl = cl_id c) /\
    (* signed with one of the client's own keys *)
    x_jwks E (cl_jwks c) = Some keys /\ In k keys /\ k_use k <> "enc"%string /\ x_verify E k a = true /\
    c_aud cl <> ""%string /\ c_jti cl <> ""%string /\
    (* and not expired *)
    history E w xs = (h1 ++ h2)%list /\ during h1 i (RAssertion (Some req)) /\ (unix (clock w h1) <= c_exp cl)%N.
Proof. exact C32_private_key_jwt_proof. Qed.
Print Assumptions C32_private_key_jwt.
Example C32_private_key_jwt_met : exists E w xs i req res,
  answered (history E w xs) i (RAssertion (Some req)) (PAuthn res) /\
  aa_err res = false.
Proof.
  exists (demo_ext); exists (w0); exists (x_assert); exists (0%nat); eexists; eexists.
  meet.
Qed.

(** ** C33 A client assertion is for this server and used once *)

Theorem C33_assertion_audience_and_replay_refuted : exists E w xs i j a cl c,
  blank w /\ registry_ok w /\ no_faults xs /\ i <> j /\
  x_payload E KAssertion a = Some cl /\ c_aud cl = "https://other.example"%string /\
  authenticates (history E w xs) i (assertion_req a) c /\ authenticates (history E w xs) j (assertion_req a) c.
Proof. exact C33_assertion_audience_and_replay_refuted_proof. Qed.
Print Assumptions C33_assertion_audience_and_replay_refuted.
(* The theorem is itself a concrete case. *)

(** ** C34 Client attestation authenticates the attested client *)

Theorem C34_attestation_partial : forall E w xs i req c,
  authenticates (history E w xs) i (RAttestation (Some req)) c ->
  exists att pop ca cp attester keys k key h1 h2 h3 h4,
    aq_type req = Some "urn:ietf:params:oauth:client-assertion-type:jwt-client-attestation"%string /\
    aq_assertion req = Some (att ++ "~" ++ pop)%string /\
    (* a registered client vouched for [key] with one of its registered keys *)
    x_payload E KAttestation att = Some ca /\ w_clients w (c_iss ca) = Some attester /\
    x_jwks E (cl_jwks attester) = Some keys /\ In k keys /\ k_use k <> "enc"%string /\ x_verify E k att = true /\
    c_cnf_jwk ca = Some (Some key) /\ c_sub ca <> ""%string /\
    history E w xs = (h1 ++ h2)%list /\ during h1 i (RAttestation (Some req)) /\ (unix (clock w h1) <= c_exp ca)%N /\
    (* that key signed the proof, which names the client *)
    x_payload E KPop pop = Some cp /\ x_verify E key pop = true /\ w_clients w (c_iss cp) = Some c /\
    c_jti cp <> ""%string /\ c_aud cp <> ""%string /\
    history E w xs = (h3 ++ h4)%list /\ during h3 i (RAttestation (Some req)) /\ (unix (clock w h3) <= c_exp cp)%N.
Proof. exact C34_attestation_partial_proof. Qed.
Print Assumptions C34_attestation_partial.
Example C34_attestation_partial_met : exists E w xs i req c,
  authenticates (history E w xs) i (RAttestation (Some req)) c.
Proof.
  exists (demo_ext); exists (w0); exists (x_attest_ok); exists (0%nat); eexists; eexists.
  meet.
Qed.

Theorem C34_attested_client_refuted : exists E w xs i att pop ca c,
  blank w /\ registry_ok w /\ no_faults xs /\
  authenticates (history E w xs) i (attestation_req (att ++ "~" ++ pop)%string) c /\
  x_payload E KAttestation att = Some ca /\ c_sub ca <> cl_id c.
Proof. exact C34_attested_client_refuted_proof. Qed.
Print Assumptions C34_attested_client_refuted.
(* The theorem is itself a concrete case. *)

(** ** C35 DPoP verification is sound *)

Theorem C35_dpop_sound : forall E w xs i htm htu proof tv tc thumb,
  dpop_accepts (history E w xs) i htm htu proof tv tc thumb ->
  exists t k cl th h1 h2 h3 h4,
    x_parse E proof = Some t /\ j_typ t = Some "dpop+jwt"%string /\
    (* signed by the key embedded in it *)
    j_jwk t = Some k /\ x_verify E k proof = true /\ x_payload E KDpop proof = Some cl /\
    (* names exactly this method and URL *)
    c_htm cl = htm /\ x_request_uri E htu = true /\ c_htu cl = x_url_string E htu /\
    (* issued within 15 seconds of the clock, read during the verification *)
    history E w xs = (h1 ++ h2)%list /\ during h1 i (RDpop htm htu proof tv tc) /\
    history E w xs = (h3 ++ h4)%list /\ during h3 i (RDpop htm htu proof tv tc) /\
    (unix (clock w h1 - 15 * second) <= c_iat cl)%N /\ (c_iat cl <= unix (clock w h3 + 15 * second))%N /\
    (* no proof with that id was registered in the last minute *)
    (forall g1 k a g2 g3, history E w xs = (g1 ++ EvCall k (CProofReg (proof_id E cl)) a :: g2 ++
         EvCall i (CProofExists (proof_id E cl)) (ABool (SOk false)) :: g3)%list -> ans_ok a = true ->
       (60 * second < elapsed g2)%N) /\
    In (EvCall i (CProofExists (proof_id E cl)) (ABool (SOk false))) (history E w xs) /\
    (* and now it is registered *)
    (exists a, In (EvCall i (CProofReg (proof_id E cl)) a) (history E w xs) /\ ans_ok a = true) /\
    x_thumb E k = Some th /\ thumb = b64url th.
Proof. exact C35_dpop_sound_proof. Qed.
Print Assumptions C35_dpop_sound.
Example C35_dpop_sound_met : exists E w xs i htm htu proof tv tc thumb,
  dpop_accepts (history E w xs) i htm htu proof tv tc thumb.
Proof.
  exists (demo_ext); exists (w0); exists (x_dpop); exists (0%nat); eexists; eexists; eexists; eexists; eexists; eexists.
  meet.
Qed.

(** ** C36 A DPoP proof is accepted at most once by sequential requests *)

Theorem C36_dpop_once_partial : forall E w xs h1 h2 i j proof htm htu tv tc thumb htm' htu' tv' tc' thumb',
  history E w xs = (h1 ++ h2)%list ->
  dpop_accepts h1 i htm htu proof tv tc thumb ->
  In (EvStart j (RDpop htm' htu' proof tv' tc')) h2 ->
  takes_at_most (history E w xs) j (29 * second + 1) ->
  ~ dpop_accepts (history E w xs) j htm' htu' proof tv' tc' thumb'.
Proof. exact C36_dpop_once_partial_proof. Qed.
Print Assumptions C36_dpop_once_partial.
Example C36_dpop_once_partial_met : exists E w xs h1 h2 i j proof htm htu tv tc thumb htm' htu' tv' tc',
  history E w xs = (h1 ++ h2)%list /\
  dpop_accepts h1 i htm htu proof tv tc thumb /\
  In (EvStart j (RDpop htm' htu' proof tv' tc')) h2 /\
  takes_at_most (history E w xs) j (29 * second + 1).
Proof.
  exists (demo_ext); exists (w0); exists (x_dpop2); exists (firstn 6 (history demo_ext w0 x_dpop2)); exists (skipn 6 (history demo_ext w0 x_dpop2)); exists (0%nat); exists (1%nat); exists ("proof"%string); eexists; eexists; eexists; eexists; eexists; eexists; eexists; eexists; eexists.
  meet.
Qed.

Theorem C36_dpop_once_refuted : exists E w xs h1 h2 i j htm htu proof thumb,
  blank w /\ no_faults xs /\ history E w xs = (h1 ++ h2)%list /\
  dpop_accepts h1 i htm htu proof None None thumb /\
  In (EvStart j (RDpop htm htu proof None None)) h2 /\
  takes_at_most (history E w xs) j (29 * second + 2) /\
  dpop_accepts (history E w xs) j htm htu proof None None thumb.
Proof. exact C36_dpop_once_refuted_proof. Qed.
Print Assumptions C36_dpop_once_refuted.
(* The theorem is itself a concrete case. *)

(** ** C37 A DPoP proof is accepted at most once under concurrency *)

Theorem C37_dpop_once_partial : forall E w xs i j proof htm htu tv tc thumb htm' htu' tv' tc' thumb' cl h1 h2 a,
  dpop_accepts (history E w xs) i htm htu proof tv tc thumb ->
  dpop_accepts (history E w xs) j htm' htu' proof tv' tc' thumb' ->
  takes_at_most (history E w xs) j (29 * second + 1) ->
  x_payload E KDpop proof = Some cl ->
  history E w xs = (h1 ++ EvCall i (CProofReg (proof_id E cl)) a :: h2)%list ->
  In (EvCall j (CProofExists (proof_id E cl)) (ABool (SOk false))) h1.
Proof. exact C37_dpop_once_partial_proof. Qed.
Print Assumptions C37_dpop_once_partial.
Example C37_dpop_once_partial_met : exists E w xs i j proof htm htu tv tc thumb htm' htu' tv' tc' thumb' cl h1 h2 a,
  dpop_accepts (history E w xs) i htm htu proof tv tc thumb /\
  dpop_accepts (history E w xs) j htm' htu' proof tv' tc' thumb' /\
  takes_at_most (history E w xs) j (29 * second + 1) /\
  x_payload E KDpop proof = Some cl /\
  history E w xs = (h1 ++ EvCall i (CProofReg (proof_id E cl)) a :: h2)%list.
Proof.
  exists (demo_ext); exists (w0); exists (x_dpop_race); exists (0%nat); exists (1%nat); exists ("proof"%string); eexists; eexists; eexists; eexists; eexists; eexists; eexists; eexists; eexists; eexists; eexists; exists (firstn 8 (history demo_ext w0 x_dpop_race)); exists (skipn 9 (history demo_ext w0 x_dpop_race)); eexists.
  meet.
Qed.

Theorem C37_dpop_race_refuted : exists E w xs i j htm htu proof thumb,
  blank w /\ no_faults xs /\ i <> j /\
  dpop_accepts (history E w xs) i htm htu proof None None thumb /\
  dpop_accepts (history E w xs) j htm htu proof None None thumb /\ elapsed (history E w xs) = 0%N.
Proof. exact C37_dpop_race_refuted_proof. Qed.
Print Assumptions C37_dpop_race_refuted.
(* The theorem is itself a concrete case. *)

(** ** C38 DPoP binds the access token *)

Theorem C38_dpop_binds_token : forall E w xs i htm htu proof token tc thumb,
  dpop_accepts (history E w xs) i htm htu proof (Some token) tc thumb ->
  exists cl t k th, x_parse E proof = Some t /\ j_jwk t = Some k /\ x_payload E KDpop proof = Some cl /\
    c_ath cl = Some (b64url (x_sha256 E token)) /\ x_thumb E k = Some th /\
    (forall cnf, tc = Some cnf -> cnf = b64url th).
Proof. exact C38_dpop_binds_token_proof. Qed.
Print Assumptions C38_dpop_binds_token.
Example C38_dpop_binds_token_met : exists E w xs i htm htu proof token tc thumb,
  dpop_accepts (history E w xs) i htm htu proof (Some token) tc thumb.
Proof.
  exists (demo_ext); exists (w0); exists (x_dpop); exists (0%nat); eexists; eexists; eexists; exists ("token-value"%string); eexists; eexists.
  meet.
Qed.

(** ** C39 Constant-time comparison is equality *)

Theorem C39_secure_compare : forall given actual, secure_compare given actual = true <-> given = actual.
Proof. exact C39_secure_compare_proof. Qed.
Print Assumptions C39_secure_compare.
Example C39_secure_compare_met : secure_compare "abc" "abc" = true /\ secure_compare "abc" "abd" = false.
Proof. split; vm_compute; reflexivity. Qed.
