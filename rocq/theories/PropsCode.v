(** * Authorization codes: the theorems

    Written by tools/gen_props.py: the statements are those of the lemmas proved in
    PfCode, PfCode2.
    Below each theorem, a concrete case that meets its hypotheses. *)

From Verif Require Import Meet.

(** ** C01 client_credentials is only for clients that may use it *)

Theorem C01_client_credentials_gate : forall E w xs i req res,
  registry_ok w -> token_ok (history E w xs) i req res ->
  tq_grant_type req = "client_credentials"%string ->
  exists c at_ m,
    client_of w req c /\ by_client req (cl_id c) /\
    (cl_type c = CtConfidential \/ cl_type c = CtCredentialed) /\
    listed E (cl_grant_types c) "client_credentials" /\
    tr_at res = Some at_ /\ tokens_of res = [at_] /\ t_type at_ = TtAccess /\ t_cnf at_ = tq_cnf req /\
    t_meta at_ = Some m /\ m_client_id m = cl_id c /\ m_issuer m = tq_issuer req /\
    m_scope m = given (tq_scope req) /\ m_audience m = given (tq_audience req) /\ m_subject m = ""%string.
Proof. exact C01_client_credentials_gate_proof. Qed.
Print Assumptions C01_client_credentials_gate.
Example C01_client_credentials_gate_met : exists E w xs i req res,
  registry_ok w /\
  token_ok (history E w xs) i req res /\
  tq_grant_type req = "client_credentials"%string.
Proof.
  exists (demo_ext); exists (w0); exists (x_cc); exists (0%nat); exists (ccreq webapp); eexists.
  meet.
Qed.

(** ** C02 An authorization code is redeemed at most once by sequential requests *)

Theorem C02_code_redeemed_once : forall E w xs h1 h2 i j req1 req2 res1 res2 issuer code,
  history E w xs = (h1 ++ h2)%list ->
  token_ok h1 i req1 res1 -> In (EvStart j (RToken (Some req2))) h2 ->
  presents_code req1 issuer code -> presents_code req2 issuer code ->
  token_ok (history E w xs) j req2 res2 ->
  exists g1 g2, history E w xs = (g1 ++ g2)%list /\ during g1 i (RToken (Some req1)) /\
    handed_out E g2 issuer code.
Proof. exact C02_code_redeemed_once_proof. Qed.
Print Assumptions C02_code_redeemed_once.
Example C02_code_redeemed_once_met : exists E w xs h1 h2 i j req1 req2 res1 res2 issuer code,
  history E w xs = (h1 ++ h2)%list /\
  token_ok h1 i req1 res1 /\
  In (EvStart j (RToken (Some req2))) h2 /\
  presents_code req1 issuer code /\
  presents_code req2 issuer code /\
  token_ok (history E w xs) j req2 res2.
Proof.
  exists (demo_ext); exists (w0); exists (x_again); exists (firstn 18 (history demo_ext w0 x_again)); exists (skipn 18 (history demo_ext w0 x_again)); exists (1%nat); exists (3%nat); exists (redeem webapp "code-1"); exists (redeem webapp "code-1"); eexists; eexists; exists (iss); exists ("code-1"%string).
  meet.
Qed.

(** ** C03 An authorization code is redeemed at most once under concurrency *)

Theorem C03_concurrent_double_redemption_refuted : exists E w xs i j req1 req2 res1 res2 issuer code h1 h2 k c a,
    blank w /\ registry_ok w /\ no_faults xs /\ i <> j /\
    presents_code req1 issuer code /\ presents_code req2 issuer code /\
    token_ok (history E w xs) i req1 res1 /\ token_ok (history E w xs) j req2 res2 /\
    tr_rt res1 <> None /\ tr_rt res2 <> None /\ tr_rt res1 <> tr_rt res2 /\
    (* the code was handed out only once *)
    history E w xs = (h1 ++ EvCall k c a :: h2)%list /\
    ~ handed_out E h1 issuer code /\ ~ handed_out E h2 issuer code.
Proof. exact C03_concurrent_double_redemption_refuted_proof. Qed.
Print Assumptions C03_concurrent_double_redemption_refuted.
(* The theorem is itself a concrete case. *)

Theorem C03_code_redeemed_once_partial : forall E w xs h1 i issuer code rd h2 j req res,
  history E w xs = (h1 ++ EvCall i (CSessDel issuer code) (AUnit rd) :: h2)%list -> is_ok rd = true ->
  token_ok (history E w xs) j req res -> presents_code req issuer code ->
  (forall a, ~ In (EvCall j (CSessGet issuer code) a) h1) ->
  handed_out E h2 issuer code.
Proof. exact C03_code_redeemed_once_partial_proof. Qed.
Print Assumptions C03_code_redeemed_once_partial.
Example C03_code_redeemed_once_partial_met : exists E w xs h1 i issuer code rd h2 j req res,
  history E w xs = (h1 ++ EvCall i (CSessDel issuer code) (AUnit rd) :: h2)%list /\
  is_ok rd = true /\
  token_ok (history E w xs) j req res /\
  presents_code req issuer code /\
  (forall a, ~ In (EvCall j (CSessGet issuer code) a) h1).
Proof.
  exists (demo_ext); exists (w0); exists (x_again); exists (firstn 8 (history demo_ext w0 x_again)); exists (1%nat); exists (iss); exists ("code-1"%string); eexists; exists (skipn 9 (history demo_ext w0 x_again)); exists (3%nat); exists (redeem webapp "code-1"); eexists.
  meet.
  every.
Qed.

(** ** C04 PKCE and redirect_uri gate every code redemption *)

Theorem C04_pkce_and_redirect_gate : forall E w xs i req res,
  blank w -> token_ok (history E w xs) i req res ->
  tq_grant_type req = "authorization_code"%string ->
  exists code redirect verifier c subject ar h1 h2,
    tq_grant req = GAuthorizationCode code redirect verifier /\ client_of w req c /\
    history E w xs = (h1 ++ h2)%list /\ during h1 i (RToken (Some req)) /\
    authorized E h1 (tq_issuer req) code subject ar /\
    ar_code_challenge_method ar = "S256"%string /\
    b64url (x_sha256 E verifier) = ar_code_challenge ar /\
    (43 <= String.length verifier <= 128)%nat /\
    ar_redirect_uri ar = redirect /\ listed E (cl_redirect_uris c) redirect.
Proof. exact C04_pkce_and_redirect_gate_proof. Qed.
Print Assumptions C04_pkce_and_redirect_gate.
Example C04_pkce_and_redirect_gate_met : exists E w xs i req res,
  blank w /\
  token_ok (history E w xs) i req res /\
  tq_grant_type req = "authorization_code"%string.
Proof.
  exists (demo_ext); exists (w0); exists (x_code); exists (1%nat); exists (redeem webapp "code-1"); eexists.
  meet.
Qed.

(** ** C05 Tokens from a code carry exactly what was authorized *)

Theorem C05_tokens_as_authorized : forall E w xs i req res,
  registry_ok w -> blank w -> token_ok (history E w xs) i req res ->
  tq_grant_type req = "authorization_code"%string ->
  exists code redirect verifier subject ar h1 h2,
    tq_grant req = GAuthorizationCode code redirect verifier /\
    history E w xs = (h1 ++ h2)%list /\ during h1 i (RToken (Some req)) /\
    authorized E h1 (tq_issuer req) code subject ar /\
    (forall t, In t (tokens_of res) ->
       exists m, t_meta t = Some m /\ m_issuer m = tq_issuer req /\ m_subject m = subject /\
         m_scope m = ar_scope ar /\ m_audience m = ar_audience ar /\ by_client req (m_client_id m) /\
         t_cnf t = tq_cnf req) /\
    (tr_at res <> None <-> asks E (ar_scope ar) "openid") /\
    (tr_rt res <> None <-> asks E (ar_scope ar) "openid" /\ asks E (ar_scope ar) "offline_access") /\
    tr_idt res = None /\
    (forall t, tr_at res = Some t -> t_type t = TtAccess) /\
    (forall t, tr_rt res = Some t -> t_type t = TtRefresh).
Proof. exact C05_tokens_as_authorized_proof. Qed.
Print Assumptions C05_tokens_as_authorized.
Example C05_tokens_as_authorized_met : exists E w xs i req res,
  registry_ok w /\
  blank w /\
  token_ok (history E w xs) i req res /\
  tq_grant_type req = "authorization_code"%string.
Proof.
  exists (demo_ext); exists (w0); exists (x_code); exists (1%nat); exists (redeem webapp "code-1"); eexists.
  meet.
Qed.

(** ** C06 An authorization code only works for the client it was issued to *)

Theorem C06_code_bound_to_client_refuted : exists E w xs req res code subject ar h1 h2,
    blank w /\ registry_ok w /\ no_faults xs /\
    token_ok (history E w xs) 1 req res /\ presents_code req (tq_issuer req) code /\
    history E w xs = (h1 ++ h2)%list /\ during h1 1 (RToken (Some req)) /\
    authorized E h1 (tq_issuer req) code subject ar /\
    tr_at res <> None /\ ar_client_id ar = "app"%string /\ by_client req "evil".
Proof. exact C06_code_bound_to_client_refuted_proof. Qed.
Print Assumptions C06_code_bound_to_client_refuted.
(* The theorem is itself a concrete case. *)

Theorem C06_code_bound_to_client_partial : forall E w xs i req res,
  blank w -> redirects_apart E w -> token_ok (history E w xs) i req res ->
  tq_grant_type req = "authorization_code"%string ->
  exists code redirect verifier subject ar h1 h2,
    tq_grant req = GAuthorizationCode code redirect verifier /\
    history E w xs = (h1 ++ h2)%list /\ during h1 i (RToken (Some req)) /\
    authorized E h1 (tq_issuer req) code subject ar /\
    by_client req (ar_client_id ar).
Proof. exact C06_code_bound_to_client_partial_proof. Qed.
Print Assumptions C06_code_bound_to_client_partial.
Example C06_code_bound_to_client_partial_met : exists E w xs i req res,
  blank w /\
  redirects_apart E w /\
  token_ok (history E w xs) i req res /\
  tq_grant_type req = "authorization_code"%string.
Proof.
  exists (demo_ext); exists (w_apart); exists (x_code); exists (1%nat); exists (redeem webapp "code-1"); eexists.
  meet.
Qed.

(** ** C07 Authorization codes and pushed requests expire after 60 seconds *)

Theorem C07_codes_expire : forall E w xs i req res issuer code,
  blank w -> token_ok (history E w xs) i req res -> presents_code req issuer code ->
  exists g1 k iss' code' s a g2 g3,
    history E w xs = (g1 ++ EvCall k (CSessReg iss' code' s) a :: g2 ++
                      EvCall i (CSessGet issuer code) (ASess (SOk s)) :: g3)%list /\
    sess_key E iss' code' = sess_key E issuer code /\ (elapsed g2 <= 60 * second)%N.
Proof. exact C07_codes_expire_proof. Qed.
Print Assumptions C07_codes_expire.
Example C07_codes_expire_met : exists E w xs i req res issuer code,
  blank w /\
  token_ok (history E w xs) i req res /\
  presents_code req issuer code.
Proof.
  exists (demo_ext); exists (w0); exists (x_code); exists (1%nat); exists (redeem webapp "code-1"); eexists; exists (iss); exists ("code-1"%string).
  meet.
Qed.

Theorem C07_codes_retrievable : forall E w xs g1 k iss' code' s n g2 i issuer code r g3,
  no_faults xs ->
  history E w xs = (g1 ++ EvCall k (CSessReg iss' code' s) (ANum n) :: g2 ++
                    EvCall i (CSessGet issuer code) (ASess r) :: g3)%list ->
  sess_key E iss' code' = sess_key E issuer code ->
  ~ code_rewritten E g2 issuer code ->
  ((elapsed g2 <= 60 * second)%N -> r = SOk s) /\
  ((60 * second < elapsed g2)%N -> r = SNotFound).
Proof. exact C07_codes_retrievable_proof. Qed.
Print Assumptions C07_codes_retrievable.
Example C07_codes_retrievable_met : exists E w xs g1 k iss' code' s n g2 i issuer code r g3,
  no_faults xs /\
  history E w xs = (g1 ++ EvCall k (CSessReg iss' code' s) (ANum n) :: g2 ++ EvCall i (CSessGet issuer code) (ASess r) :: g3)%list /\
  sess_key E iss' code' = sess_key E issuer code /\
  ~ code_rewritten E g2 issuer code.
Proof.
  exists (demo_ext); exists (w0); exists (x_code); exists (firstn 3 (history demo_ext w0 x_code)); exists (0%nat); exists (iss); exists ("code-1"%string); eexists; eexists; exists (firstn 3 (skipn 4 (history demo_ext w0 x_code))); exists (1%nat); exists (iss); exists ("code-1"%string); eexists; exists (skipn 4 (skipn 4 (history demo_ext w0 x_code))).
  meet.
Qed.
Example C07_codes_retrievable_met_late : exists E w xs g1 k iss' code' s n g2 i issuer code r g3,
  no_faults xs /\
  history E w xs = (g1 ++ EvCall k (CSessReg iss' code' s) (ANum n) :: g2 ++ EvCall i (CSessGet issuer code) (ASess r) :: g3)%list /\
  sess_key E iss' code' = sess_key E issuer code /\
  ~ code_rewritten E g2 issuer code.
Proof.
  exists (demo_ext); exists (w0); exists (x_late); exists (firstn 3 (history demo_ext w0 x_late)); exists (0%nat); exists (iss); exists ("code-1"%string); eexists; eexists; exists (firstn 4 (skipn 4 (history demo_ext w0 x_late))); exists (1%nat); exists (iss); exists ("code-1"%string); eexists; exists (skipn 5 (skipn 4 (history demo_ext w0 x_late))).
  meet.
Qed.

Theorem C07_pushed_requests_expire : forall E w xs i req res r0 uri,
  blank w -> answered (history E w xs) i (RAuthorize (Some req)) (PAuthorize res) -> zr_err res = false ->
  zq_request req = Some r0 -> ar_request_uri r0 = Some uri ->
  exists g1 k iss' uri' pushed a g2 g3,
    history E w xs = (g1 ++ EvCall k (CReqReg iss' uri' pushed) a :: g2 ++
                      EvCall i (CReqGet (zq_issuer req) uri) (AReq (SOk pushed)) :: g3)%list /\
    req_key E iss' uri' = req_key E (zq_issuer req) uri /\ (elapsed g2 <= 60 * second)%N.
Proof. exact C07_pushed_requests_expire_proof. Qed.
Print Assumptions C07_pushed_requests_expire.
Example C07_pushed_requests_expire_met : exists E w xs i req res r0 uri,
  blank w /\
  answered (history E w xs) i (RAuthorize (Some req)) (PAuthorize res) /\
  zr_err res = false /\
  zq_request req = Some r0 /\
  ar_request_uri r0 = Some uri.
Proof.
  exists (demo_ext); exists (w0); exists (x_par); exists (1%nat); exists (byuri); eexists; exists (frontreq); exists (uri1).
  meet.
Qed.

Theorem C07_pushed_requests_retrievable : forall E w xs g1 k iss' uri' s n g2 i issuer uri r g3,
  no_faults xs ->
  history E w xs = (g1 ++ EvCall k (CReqReg iss' uri' s) (ANum n) :: g2 ++
                    EvCall i (CReqGet issuer uri) (AReq r) :: g3)%list ->
  req_key E iss' uri' = req_key E issuer uri ->
  ~ uri_rewritten E g2 issuer uri ->
  ((elapsed g2 <= 60 * second)%N -> r = SOk s) /\
  ((60 * second < elapsed g2)%N -> r = SNotFound).
Proof. exact C07_pushed_requests_retrievable_proof. Qed.
Print Assumptions C07_pushed_requests_retrievable.
Example C07_pushed_requests_retrievable_met : exists E w xs g1 k iss' uri' s n g2 i issuer uri r g3,
  no_faults xs /\
  history E w xs = (g1 ++ EvCall k (CReqReg iss' uri' s) (ANum n) :: g2 ++ EvCall i (CReqGet issuer uri) (AReq r) :: g3)%list /\
  req_key E iss' uri' = req_key E issuer uri /\
  ~ uri_rewritten E g2 issuer uri.
Proof.
  exists (demo_ext); exists (w0); exists (x_par); exists (firstn 3 (history demo_ext w0 x_par)); exists (0%nat); exists (iss); exists (uri1); eexists; eexists; exists (firstn 2 (skipn 4 (history demo_ext w0 x_par))); exists (1%nat); exists (iss); exists (uri1); eexists; exists (skipn 3 (skipn 4 (history demo_ext w0 x_par))).
  meet.
Qed.

(** ** C60 Crashes cannot resurrect a code *)

Theorem C60_deleted_code_unusable : forall E w xs h1 i issuer code rd h2 h3 j req res,
  history E w xs = (h1 ++ EvCall i (CSessDel issuer code) (AUnit rd) :: h2 ++ h3)%list -> is_ok rd = true ->
  In (EvStart j (RToken (Some req))) h3 -> token_ok (history E w xs) j req res ->
  presents_code req issuer code ->
  handed_out E (h2 ++ h3) issuer code.
Proof. exact C60_deleted_code_unusable_proof. Qed.
Print Assumptions C60_deleted_code_unusable.
Example C60_deleted_code_unusable_met : exists E w xs h1 i issuer code rd h2 h3 j req res,
  history E w xs = (h1 ++ EvCall i (CSessDel issuer code) (AUnit rd) :: h2 ++ h3)%list /\
  is_ok rd = true /\
  In (EvStart j (RToken (Some req))) h3 /\
  token_ok (history E w xs) j req res /\
  presents_code req issuer code.
Proof.
  exists (demo_ext); exists (w0); exists (x_again); exists (firstn 8 (history demo_ext w0 x_again)); exists (1%nat); exists (iss); exists ("code-1"%string); eexists; exists (firstn 14 (skipn 9 (history demo_ext w0 x_again))); exists (skipn 14 (skipn 9 (history demo_ext w0 x_again))); exists (3%nat); exists (redeem webapp "code-1"); eexists.
  meet.
Qed.

Theorem C60_no_token_before_deletion : forall E w xs h1 i iss' t a h2 req code redirect verifier,
  history E w xs = (h1 ++ EvCall i (CTokCreate iss' t) a :: h2)%list ->
  In (EvStart i (RToken (Some req))) (history E w xs) ->
  tq_grant req = GAuthorizationCode code redirect verifier ->
  exists rd, In (EvCall i (CSessDel (tq_issuer req) code) (AUnit rd)) h1 /\ is_ok rd = true.
Proof. exact C60_no_token_before_deletion_proof. Qed.
Print Assumptions C60_no_token_before_deletion.
Example C60_no_token_before_deletion_met : exists E w xs h1 i iss' t a h2 req code redirect verifier,
  history E w xs = (h1 ++ EvCall i (CTokCreate iss' t) a :: h2)%list /\
  In (EvStart i (RToken (Some req))) (history E w xs) /\
  tq_grant req = GAuthorizationCode code redirect verifier.
Proof.
  exists (demo_ext); exists (w0); exists (x_code); exists (firstn 12 (history demo_ext w0 x_code)); exists (1%nat); eexists; eexists; eexists; exists (skipn 13 (history demo_ext w0 x_code)); exists (redeem webapp "code-1"); exists ("code-1"%string); exists (cb); exists (verifier).
  meet.
Qed.
