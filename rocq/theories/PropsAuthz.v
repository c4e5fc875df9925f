(** * Authorization requests and issuers: the theorems

    Written by tools/gen_props.py: the statements are those of the lemmas proved in
    PfAuthz, PfIssuer.
    Below each theorem, a concrete case that meets its hypotheses. *)

From Verif Require Import Meet.

(** ** C22 Issuers are isolated *)

Theorem C22_tokens_isolated_partial : forall E w xs,
  collision_free E -> issuers_apart (history E w xs) -> no_tokens w ->
  (* refreshed and exchanged tokens are the issuer's own, and so are the new ones *)
  (forall i req res value, token_ok (history E w xs) i req res ->
     presents_refresh req (tq_issuer req) value \/ presents_subject req (tq_issuer req) value ->
     exists t0, issued_at (history E w xs) (tq_issuer req) value t0) /\
  (forall i req res t, token_ok (history E w xs) i req res -> In t (tokens_of res) ->
     exists m, t_meta t = Some m /\ m_issuer m = tq_issuer req) /\
  (* introspection describes only the issuer's own tokens *)
  (forall i req res t, answered (history E w xs) i (RIntrospect (Some req)) (PIntrospect res) ->
     ir_token res = Some t -> t_status t <> TsUnknown ->
     exists t0, issued_at (history E w xs) (vq_issuer req) (vq_token req) t0 /\ t_id t = t_id t0) /\
  (* and revocation revokes only the issuer's own tokens *)
  (forall i req iss' id a, asked (history E w xs) i (RRevoke (Some req)) ->
     In (EvCall i (CTokRevoke iss' id) a) (history E w xs) ->
     exists t0, issued_at (history E w xs) (vq_issuer req) (vq_token req) t0 /\ t_id t0 = id).
Proof. exact C22_tokens_isolated_partial_proof. Qed.
Print Assumptions C22_tokens_isolated_partial.
Example C22_tokens_isolated_partial_met : exists E w xs i req res j req' res' k q,
  collision_free E /\ issuers_apart (history E w xs) /\ no_tokens w /\
  token_ok (history E w xs) i req res /\ presents_refresh req (tq_issuer req) "rt-1" /\
  answered (history E w xs) j (RIntrospect (Some req')) (PIntrospect res') /\ vq_issuer req' <> tq_issuer req /\
  asked (history E w xs) k (RRevoke (Some q)).
Proof.
  exists demo_ext, w0, x_two_issuers, 2%nat, (refreshreq webapp "rt-1"). eexists. exists 3%nat. do 2 eexists. exists 4%nat. eexists. meet.
Qed.

Theorem C22_codes_isolated_partial : forall E w xs,
  collision_free E -> issuers_apart (history E w xs) -> blank w ->
  (forall i req res code, token_ok (history E w xs) i req res -> presents_code req (tq_issuer req) code ->
     exists k q s a, asked (history E w xs) k (RAuthorize (Some q)) /\ zq_issuer q = tq_issuer req /\
       In (EvCall k (CSessReg (tq_issuer req) code s) a) (history E w xs)) /\
  (forall i q res front uri, authorize_ok_at (history E w xs) i q res ->
     zq_request q = Some front -> ar_request_uri front = Some uri ->
     exists g gq pushed a, asked (history E w xs) g (RRegister (Some gq)) /\ gq_issuer gq = zq_issuer q /\
       In (EvCall g (CReqReg (zq_issuer q) uri pushed) a) (history E w xs)).
Proof. exact C22_codes_isolated_partial_proof. Qed.
Print Assumptions C22_codes_isolated_partial.
Example C22_codes_isolated_partial_met : exists E w xs i req res code,
  collision_free E /\ issuers_apart (history E w xs) /\ blank w /\
  token_ok (history E w xs) i req res /\ presents_code req (tq_issuer req) code.
Proof.
  exists demo_ext, w0, x_two_issuers, 1%nat, (redeem webapp "code-1"). eexists. exists "code-1"%string. meet.
Qed.

Theorem C22_introspection_isolated_refuted : exists E w xs i req res t m,
  collision_free E /\ blank w /\ registry_ok w /\ no_faults xs /\
  answered (history E w xs) i (RIntrospect (Some req)) (PIntrospect res) /\ ir_err res = false /\
  ir_token res = Some t /\ t_status t = TsActive /\ t_meta t = Some m /\
  (* the token names another issuer, and no other request was ever sent to this one *)
  m_issuer m <> vq_issuer req /\
  (forall k r, asked (history E w xs) k r -> issuer_of r = Some (vq_issuer req) -> k = i).
Proof. exact C22_introspection_isolated_refuted_proof. Qed.
Print Assumptions C22_introspection_isolated_refuted.
(* The theorem is itself a concrete case. *)

Theorem C22_codes_isolated_refuted : exists E w xs i req res nt m,
  collision_free E /\ blank w /\ registry_ok w /\ no_faults xs /\
  token_ok (history E w xs) i req res /\ tq_grant_type req = "authorization_code"%string /\
  tr_at res = Some nt /\ t_meta nt = Some m /\ m_subject m = "alice"%string /\
  (* no other request was ever sent to this issuer *)
  (forall k r, asked (history E w xs) k r -> issuer_of r = Some (tq_issuer req) -> k = i).
Proof. exact C22_codes_isolated_refuted_proof. Qed.
Print Assumptions C22_codes_isolated_refuted.
(* The theorem is itself a concrete case. *)

(** ** C25 Authorize only issues codes for valid requests *)

Theorem C25_authorize_valid_requests : forall E w xs i q res,
  authorize_ok_at (history E w xs) i q res ->
  exists eff stored c a,
    effective (history E w xs) i q eff /\
    (32 <= String.length (ar_state eff))%nat /\ (8 <= String.length (ar_nonce eff))%nat /\
    ar_code_challenge_method eff = "S256"%string /\ String.length (ar_code_challenge eff) = 43%nat /\
    (ar_response_type eff = "code"%string \/ ar_response_type eff = "token"%string) /\
    x_request_uri E (ar_redirect_uri eff) = true /\ ar_scope eff <> ""%string /\ ar_audience eff <> ""%string /\
    w_clients w (ar_client_id eff) = Some c /\
    listed E (cl_grant_types c) "authorization_code" /\ listed E (cl_response_types c) (ar_response_type eff) /\
    listed E (cl_redirect_uris c) (ar_redirect_uri eff) /\
    (forall m, ar_response_mode stored = Some m -> listed E (cl_response_modes c) m) /\
    normalized E eff stored /\
    In (EvCall i (CSessReg (zq_issuer q) (zr_code res)
          (mkSess (zq_issuer q) (zq_subject q) (Some stored))) a) (history E w xs) /\ ans_ok a = true /\
    (forall iss' code' s' a', In (EvCall i (CSessReg iss' code' s') a') (history E w xs) ->
       iss' = zq_issuer q /\ code' = zr_code res /\ s' = mkSess (zq_issuer q) (zq_subject q) (Some stored)) /\
    zq_subject q <> ""%string /\ zq_issuer q <> ""%string /\
    zr_state res = ar_state eff /\ zr_redirect_uri res = ar_redirect_uri eff /\
    zr_client_id res = ar_client_id eff /\ zr_issuer res = zq_issuer q /\ zr_error res = None.
Proof. exact C25_authorize_valid_requests_proof. Qed.
Print Assumptions C25_authorize_valid_requests.
Example C25_authorize_valid_requests_met : exists E w xs i q res,
  authorize_ok_at (history E w xs) i q res.
Proof.
  exists (demo_ext); exists (w0); exists (x_par); exists (1%nat); exists (byuri); eexists.
  meet.
Qed.

(** ** C26 Codes are only sent to a registered redirect URI *)

Theorem C26_redirect_registered_partial : forall E w xs i q res,
  authorize_ok_at (history E w xs) i q res ->
  exists c registered, w_clients w (zr_client_id res) = Some c /\ In registered (cl_redirect_uris c) /\
    fold_eq (x_fold E) (zr_redirect_uri res) registered.
Proof. exact C26_redirect_registered_partial_proof. Qed.
Print Assumptions C26_redirect_registered_partial.
Example C26_redirect_registered_partial_met : exists E w xs i q res,
  authorize_ok_at (history E w xs) i q res.
Proof.
  exists (demo_ext); exists (w0); exists (x_par); exists (1%nat); exists (byuri); eexists.
  meet.
Qed.

Theorem C26_redirect_exact_refuted : exists E w xs i q res c,
  blank w /\ registry_ok w /\ no_faults xs /\ authorize_ok_at (history E w xs) i q res /\
  w_clients w (zr_client_id res) = Some c /\ ~ In (zr_redirect_uri res) (cl_redirect_uris c).
Proof. exact C26_redirect_exact_refuted_proof. Qed.
Print Assumptions C26_redirect_exact_refuted.
(* The theorem is itself a concrete case. *)

(** ** C27 No offline access without consent *)

Theorem C27_no_offline_without_consent_partial : forall E w xs i req res,
  blank w -> token_ok (history E w xs) i req res -> tq_grant_type req = "authorization_code"%string ->
  tr_rt res <> None ->
  exists code redirect verifier k q eff code' s a,
    tq_grant req = GAuthorizationCode code redirect verifier /\
    (* the authorization behind the code *)
    asked (history E w xs) k (RAuthorize (Some q)) /\
    In (EvCall k (CSessReg (zq_issuer q) code' s) a) (history E w xs) /\
    sess_key E (zq_issuer q) code' = sess_key E (tq_issuer req) code /\
    effective (history E w xs) k q eff /\
    asks E (ar_scope eff) "openid" /\ asks E (ar_scope eff) "offline_access" /\
    (ar_prompt eff = Some "consent"%string \/ asks_twice E (ar_scope eff) "offline_access").
Proof. exact C27_no_offline_without_consent_partial_proof. Qed.
Print Assumptions C27_no_offline_without_consent_partial.
Example C27_no_offline_without_consent_partial_met : exists E w xs i req res,
  blank w /\
  token_ok (history E w xs) i req res /\
  tq_grant_type req = "authorization_code"%string /\
  tr_rt res <> None.
Proof.
  exists (demo_ext); exists (w0); exists (x_code); exists (1%nat); exists (redeem webapp "code-1"); eexists.
  meet.
Qed.

Theorem C27_no_offline_without_consent_refuted : exists E w xs k q zres ar i req res,
  blank w /\ registry_ok w /\ no_faults xs /\
  authorize_ok_at (history E w xs) k q zres /\ zq_request q = Some ar /\ ar_request_uri ar = None /\
  asks E (ar_scope ar) "openid" /\ asks E (ar_scope ar) "offline_access" /\ ar_prompt ar = None /\
  token_ok (history E w xs) i req res /\ presents_code req (zq_issuer q) (zr_code zres) /\ tr_rt res <> None.
Proof. exact C27_no_offline_without_consent_refuted_proof. Qed.
Print Assumptions C27_no_offline_without_consent_refuted.
(* The theorem is itself a concrete case. *)

(** ** C28 A request_uri works once *)

Theorem C28_deleted_request_unusable : forall E w xs h1 i issuer uri rd h2 h3 j q r0 res,
  history E w xs = (h1 ++ EvCall i (CReqDel issuer uri) (AUnit rd) :: h2 ++ h3)%list -> is_ok rd = true ->
  In (EvStart j (RAuthorize (Some q))) h3 -> authorize_ok_at (history E w xs) j q res ->
  zq_issuer q = issuer -> zq_request q = Some r0 -> ar_request_uri r0 = Some uri ->
  uri_handed_out E (h2 ++ h3) issuer uri.
Proof. exact C28_deleted_request_unusable_proof. Qed.
Print Assumptions C28_deleted_request_unusable.
Example C28_deleted_request_unusable_met : exists E w xs h1 i issuer uri rd h2 h3 j q r0 res,
  history E w xs = (h1 ++ EvCall i (CReqDel issuer uri) (AUnit rd) :: h2 ++ h3)%list /\
  is_ok rd = true /\
  In (EvStart j (RAuthorize (Some q))) h3 /\
  authorize_ok_at (history E w xs) j q res /\
  zq_issuer q = issuer /\
  zq_request q = Some r0 /\
  ar_request_uri r0 = Some uri.
Proof.
  exists (demo_ext); exists (w0); exists (x_par2); exists (firstn 7 (history demo_ext w0 x_par2)); exists (1%nat); exists (iss); exists (uri1); eexists; exists (firstn 9 (skipn 8 (history demo_ext w0 x_par2))); exists (skipn 9 (skipn 8 (history demo_ext w0 x_par2))); exists (3%nat); exists (byuri); exists (frontreq); eexists.
  meet.
Qed.

Theorem C28_request_uri_once : forall E w xs h1 h2 i j q1 q2 r1 r2 res1 res2 issuer uri,
  history E w xs = (h1 ++ h2)%list ->
  authorize_ok_at h1 i q1 res1 -> In (EvStart j (RAuthorize (Some q2))) h2 ->
  zq_issuer q1 = issuer -> zq_request q1 = Some r1 -> ar_request_uri r1 = Some uri ->
  zq_issuer q2 = issuer -> zq_request q2 = Some r2 -> ar_request_uri r2 = Some uri ->
  authorize_ok_at (history E w xs) j q2 res2 ->
  exists g1 g2, history E w xs = (g1 ++ g2)%list /\ during g1 i (RAuthorize (Some q1)) /\
    uri_handed_out E g2 issuer uri.
Proof. exact C28_request_uri_once_proof. Qed.
Print Assumptions C28_request_uri_once.
Example C28_request_uri_once_met : exists E w xs h1 h2 i j q1 q2 r1 r2 res1 res2 issuer uri,
  history E w xs = (h1 ++ h2)%list /\
  authorize_ok_at h1 i q1 res1 /\
  In (EvStart j (RAuthorize (Some q2))) h2 /\
  zq_issuer q1 = issuer /\
  zq_request q1 = Some r1 /\
  ar_request_uri r1 = Some uri /\
  zq_issuer q2 = issuer /\
  zq_request q2 = Some r2 /\
  ar_request_uri r2 = Some uri /\
  authorize_ok_at (history E w xs) j q2 res2.
Proof.
  exists (demo_ext); exists (w0); exists (x_par2); exists (firstn 12 (history demo_ext w0 x_par2)); exists (skipn 12 (history demo_ext w0 x_par2)); exists (1%nat); exists (3%nat); exists (byuri); exists (byuri); exists (frontreq); exists (frontreq); eexists; eexists; exists (iss); exists (uri1).
  meet.
Qed.

(** ** C29 A pushed request is used as pushed and only by its own client *)

Theorem C29_register_own_client : forall E w xs g gq res,
  answered (history E w xs) g (RRegister (Some gq)) (PRegister res) -> gr_err res = false ->
  exists c0 r0 pushed a, gq_client gq = Some c0 /\ gq_request gq = Some r0 /\ ar_client_id r0 = cl_id c0 /\
    ar_request_uri r0 = None /\ normalized E r0 pushed /\
    In (EvCall g (CReqReg (gq_issuer gq) (gr_request_uri res) pushed) a) (history E w xs) /\ ans_ok a = true /\
    (forall iss' uri' p' a', In (EvCall g (CReqReg iss' uri' p') a') (history E w xs) ->
       iss' = gq_issuer gq /\ uri' = gr_request_uri res /\ p' = pushed).
Proof. exact C29_register_own_client_proof. Qed.
Print Assumptions C29_register_own_client.
Example C29_register_own_client_met : exists E w xs g gq res,
  answered (history E w xs) g (RRegister (Some gq)) (PRegister res) /\
  gr_err res = false.
Proof.
  exists (demo_ext); exists (w0); exists (x_par); exists (0%nat); exists (pushreq); eexists.
  meet.
Qed.

Theorem C29_pushed_request_as_pushed : forall E w xs i q res front uri,
  blank w -> authorize_ok_at (history E w xs) i q res ->
  zq_request q = Some front -> ar_request_uri front = Some uri ->
  exists g gq c0 r0 pushed stored uri' a a',
    (* what was pushed, by the client it names *)
    asked (history E w xs) g (RRegister (Some gq)) /\ gq_client gq = Some c0 /\ gq_request gq = Some r0 /\
    ar_client_id r0 = cl_id c0 /\ normalized E r0 pushed /\
    In (EvCall g (CReqReg (gq_issuer gq) uri' pushed) a) (history E w xs) /\
    req_key E (gq_issuer gq) uri' = req_key E (zq_issuer q) uri /\
    (* is what is authorized and answered, whatever [front] says *)
    normalized E pushed stored /\
    In (EvCall i (CSessReg (zq_issuer q) (zr_code res)
          (mkSess (zq_issuer q) (zq_subject q) (Some stored))) a') (history E w xs) /\
    zr_state res = ar_state r0 /\ zr_redirect_uri res = ar_redirect_uri r0 /\ zr_client_id res = cl_id c0.
Proof. exact C29_pushed_request_as_pushed_proof. Qed.
Print Assumptions C29_pushed_request_as_pushed.
Example C29_pushed_request_as_pushed_met : exists E w xs i q res front uri,
  blank w /\
  authorize_ok_at (history E w xs) i q res /\
  zq_request q = Some front /\
  ar_request_uri front = Some uri.
Proof.
  exists (demo_ext); exists (w0); exists (x_par); exists (1%nat); exists (byuri); eexists; exists (frontreq); exists (uri1).
  meet.
Qed.

(** ** C31 Response mode alias *)

Theorem C31_response_mode : forall E w xs i issuer code s a,
  In (EvCall i (CSessReg issuer code s) a) (history E w xs) ->
  exists q eff ar, asked (history E w xs) i (RAuthorize (Some q)) /\ effective (history E w xs) i q eff /\
    as_request s = Some ar /\
    (ar_response_mode eff = None /\ ar_response_mode ar = None \/
     exists m, ar_response_mode eff = Some m /\
       ar_response_mode ar = Some (if String.eqb m "jwt" then
          if String.eqb (ar_response_type eff) "code" then "query.jwt"%string else "fragment.jwt"%string else m)) /\
    (ar_response_type eff = "code"%string \/ ar_response_type eff = "token"%string) /\
    (forall m, ar_response_mode ar = Some m ->
       In m ["query"; "fragment"; "form_post"; "query.jwt"; "fragment.jwt"; "form_post.jwt"]%string).
Proof. exact C31_response_mode_proof. Qed.
Print Assumptions C31_response_mode.
Example C31_response_mode_met : exists E w xs i issuer code s a,
  In (EvCall i (CSessReg issuer code s) a) (history E w xs).
Proof.
  exists (demo_ext); exists (w0); exists (x_authz); exists (0%nat); eexists; eexists; eexists; eexists.
  meet.
Qed.
