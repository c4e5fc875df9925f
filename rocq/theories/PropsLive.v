(** * What is bound to succeed: the theorems

    Written by tools/gen_props.py: the statements are those of the lemmas proved in
    PfLive, PfLive2.
    Below each theorem, a concrete case that meets its hypotheses. *)

From Verif Require Import MeetLive.

(** ** C82 A fresh code is redeemed *)

Theorem C82_fresh_code_is_redeemed : forall E w xs h0 h1 h2 k q zres eff i req verifier o,
  no_faults xs ->
  history E w xs = (h0 ++ h1 ++ h2)%list -> (elapsed (h1 ++ h2) <= 60 * second)%N ->
  (* a user authorizes a client to act for them, for a scope with openid *)
  authorize_ok_at h1 k q zres -> effective h1 k q eff -> asks E (ar_scope eff) "openid" ->
  (* within a minute that client redeems the code *)
  In (EvStart i (RToken (Some req))) h2 -> In (EvDone i o) h2 ->
  by_client req (zr_client_id zres) -> tq_issuer req = zq_issuer q -> x_request_uri E (tq_issuer req) = true ->
  tq_grant_type req = "authorization_code"%string ->
  tq_grant req = GAuthorizationCode (zr_code zres) (zr_redirect_uri zres) verifier ->
  (43 <= String.length verifier <= 128)%nat -> b64url (x_sha256 E verifier) = ar_code_challenge eff ->
  zr_code zres <> ""%string -> (rune_count (zr_code zres) <= 1024)%nat ->
  generators_work (history E w xs) i ->
  (* nobody else has that code *)
  (forall k' iss' code' s a, In (EvCall k' (CSessReg iss' code' s) a) (h1 ++ h2) ->
     sess_key E iss' code' = sess_key E (zq_issuer q) (zr_code zres) -> k' = k) ->
  (forall j req' code', asked (history E w xs) j (RToken (Some req')) -> presents_code req' (tq_issuer req') code' ->
     sess_key E (tq_issuer req') code' = sess_key E (zq_issuer q) (zr_code zres) -> j = i) ->
  exists res, o = Done (PToken res) /\ tr_err res = false /\ tr_at res <> None /\
    (asks E (ar_scope eff) "offline_access" -> ar_prompt eff = Some "consent"%string -> tr_rt res <> None).
Proof. exact C82_fresh_code_is_redeemed_proof. Qed.
Print Assumptions C82_fresh_code_is_redeemed.
Example C82_fresh_code_is_redeemed_met : exists E w xs h0 h1 h2 k q zres eff i req verifier o,
  no_faults xs /\
  history E w xs = (h0 ++ h1 ++ h2)%list /\
  (elapsed (h1 ++ h2) <= 60 * second)%N /\
  authorize_ok_at h1 k q zres /\
  effective h1 k q eff /\
  asks E (ar_scope eff) "openid" /\
  In (EvStart i (RToken (Some req))) h2 /\
  In (EvDone i o) h2 /\
  by_client req (zr_client_id zres) /\
  tq_issuer req = zq_issuer q /\
  x_request_uri E (tq_issuer req) = true /\
  tq_grant_type req = "authorization_code"%string /\
  tq_grant req = GAuthorizationCode (zr_code zres) (zr_redirect_uri zres) verifier /\
  (43 <= String.length verifier <= 128)%nat /\
  b64url (x_sha256 E verifier) = ar_code_challenge eff /\
  zr_code zres <> ""%string /\
  (rune_count (zr_code zres) <= 1024)%nat /\
  generators_work (history E w xs) i /\
  (forall k' iss' code' s a, In (EvCall k' (CSessReg iss' code' s) a) (h1 ++ h2) -> sess_key E iss' code' = sess_key E (zq_issuer q) (zr_code zres) -> k' = k) /\
  (forall j req' code', asked (history E w xs) j (RToken (Some req')) -> presents_code req' (tq_issuer req') code' -> sess_key E (tq_issuer req') code' = sess_key E (zq_issuer q) (zr_code zres) -> j = i).
Proof.
  exists (demo_ext); exists (w0); exists (x_code); exists (firstn 0 (history demo_ext w0 x_code)); exists (firstn 5 (skipn 0 (history demo_ext w0 x_code))); exists (skipn 5 (skipn 0 (history demo_ext w0 x_code))); exists (0%nat); eexists; eexists; exists (areq all_scope (Some "consent"%string)); exists (1%nat); exists (redeem webapp "code-1"); exists (verifier); eexists.
  meet.
  all: meet_live.
Qed.

(** ** C83 A live refresh token works *)

Theorem C83_live_refresh_token_works : forall E w xs h1 h2 k req0 res0 t m i req c o,
  no_tokens w -> no_faults xs -> no_reuse E (history E w xs) -> history E w xs = (h1 ++ h2)%list ->
  (* a refresh token was handed out *)
  token_ok h1 k req0 res0 -> In t (tokens_of res0) -> t_type t = TtRefresh -> t_meta t = Some m ->
  (* later its client presents it, where it was issued and before it expires *)
  In (EvStart i (RToken (Some req))) h2 -> In (EvDone i o) h2 ->
  tq_grant_type req = "refresh_token"%string -> tq_grant req = GRefreshToken (t_value t) ->
  tq_issuer req = m_issuer m -> tq_issuer req <> ""%string -> x_request_uri E (tq_issuer req) = true ->
  client_of w req c -> cl_id c = m_client_id m -> listed E (cl_grant_types c) "refresh_token" ->
  (unix (clock w (history E w xs)) <= m_expires_at m)%N -> generators_work (history E w xs) i ->
  (* nobody else uses it up *)
  (forall j r, asked (history E w xs) j r -> uses_up E r (tok_key E (m_issuer m) (t_value t)) -> j = i) ->
  exists res, o = Done (PToken res) /\ tr_err res = false /\ tr_at res <> None.
Proof. exact C83_live_refresh_token_works_proof. Qed.
Print Assumptions C83_live_refresh_token_works.
Example C83_live_refresh_token_works_met : exists E w xs h1 h2 k req0 res0 t m i req c o,
  no_tokens w /\
  no_faults xs /\
  no_reuse E (history E w xs) /\
  history E w xs = (h1 ++ h2)%list /\
  token_ok h1 k req0 res0 /\
  In t (tokens_of res0) /\
  t_type t = TtRefresh /\
  t_meta t = Some m /\
  In (EvStart i (RToken (Some req))) h2 /\
  In (EvDone i o) h2 /\
  tq_grant_type req = "refresh_token"%string /\
  tq_grant req = GRefreshToken (t_value t) /\
  tq_issuer req = m_issuer m /\
  tq_issuer req <> ""%string /\
  x_request_uri E (tq_issuer req) = true /\
  client_of w req c /\
  cl_id c = m_client_id m /\
  listed E (cl_grant_types c) "refresh_token" /\
  (unix (clock w (history E w xs)) <= m_expires_at m)%N /\
  generators_work (history E w xs) i /\
  (forall j r, asked (history E w xs) j r -> uses_up E r (tok_key E (m_issuer m) (t_value t)) -> j = i).
Proof.
  exists (demo_ext); exists (w0); exists (x_refresh); exists (firstn 18 (history demo_ext w0 x_refresh)); exists (skipn 18 (history demo_ext w0 x_refresh)); exists (1%nat); exists (redeem webapp "code-1"); eexists; exists (rt_demo); eexists; exists (2%nat); exists (refreshreq webapp "rt-1"); exists (webapp); eexists.
  meet.
  all: meet_live.
Qed.

(** ** C84 Client credentials work *)

Theorem C84_client_credentials_work : forall E w xs i req c o,
  no_faults xs -> asked (history E w xs) i (RToken (Some req)) -> In (EvDone i o) (history E w xs) ->
  tq_grant_type req = "client_credentials"%string -> tq_grant req = GClientCredentials ->
  tq_issuer req <> ""%string -> x_request_uri E (tq_issuer req) = true ->
  client_of w req c -> (cl_type c = CtConfidential \/ cl_type c = CtCredentialed) ->
  listed E (cl_grant_types c) "client_credentials" -> generators_work (history E w xs) i ->
  exists res, o = Done (PToken res) /\ tr_err res = false /\ tr_at res <> None /\ tr_rt res = None.
Proof. exact C84_client_credentials_work_proof. Qed.
Print Assumptions C84_client_credentials_work.
Example C84_client_credentials_work_met : exists E w xs i req c o,
  no_faults xs /\
  asked (history E w xs) i (RToken (Some req)) /\
  In (EvDone i o) (history E w xs) /\
  tq_grant_type req = "client_credentials"%string /\
  tq_grant req = GClientCredentials /\
  tq_issuer req <> ""%string /\
  x_request_uri E (tq_issuer req) = true /\
  client_of w req c /\
  (cl_type c = CtConfidential \/ cl_type c = CtCredentialed) /\
  listed E (cl_grant_types c) "client_credentials" /\
  generators_work (history E w xs) i.
Proof.
  exists (demo_ext); exists (w0); exists (x_cc); exists (0%nat); exists (ccreq webapp); exists (webapp); eexists.
  meet.
  all: meet_live.
Qed.

(** ** C85 Approvals succeed *)

Theorem C85_approval_succeeds_partial : forall E w xs h0 h1 h2 d dq dres k q o,
  no_faults xs ->
  (* the store marks new device sessions as pending, valid for 120 s *)
  w_stamp w = stamping 120 ->
  history E w xs = (h0 ++ h1 ++ h2)%list -> (elapsed (h1 ++ h2) <= 120 * second)%N ->
  device_codes_apart E (history E w xs) ->
  (* a device asks for codes *)
  answered h1 d (RDevAuthorize (Some dq)) (PDevAuthorize dres) -> dv_err dres = false ->
  (* then a user sends the user code *)
  In (EvStart k (RDevValidate (Some q))) h2 -> In (EvDone k o) h2 ->
  vv_issuer q = dr_issuer dq -> vv_user_code q = dv_user_code dres -> vv_user_code q <> ""%string ->
  vv_subject q <> ""%string ->
  (* nobody else sends it, to whatever issuer *)
  (forall k' q' issuer, asked (history E w xs) k' (RDevValidate (Some q')) ->
     user_key E issuer (vv_user_code q') = user_key E (dr_issuer dq) (dv_user_code dres) -> k' = k) ->
  exists res, o = Done (PDevValidate res) /\ vr_err res = false.
Proof. exact C85_approval_succeeds_partial_proof. Qed.
Print Assumptions C85_approval_succeeds_partial.
Example C85_approval_succeeds_partial_met : exists E w xs h0 h1 h2 d dq dres k q o,
  no_faults xs /\
  w_stamp w = stamping 120 /\
  history E w xs = (h0 ++ h1 ++ h2)%list /\
  (elapsed (h1 ++ h2) <= 120 * second)%N /\
  device_codes_apart E (history E w xs) /\
  answered h1 d (RDevAuthorize (Some dq)) (PDevAuthorize dres) /\
  dv_err dres = false /\
  In (EvStart k (RDevValidate (Some q))) h2 /\
  In (EvDone k o) h2 /\
  vv_issuer q = dr_issuer dq /\
  vv_user_code q = dv_user_code dres /\
  vv_user_code q <> ""%string /\
  vv_subject q <> ""%string /\
  (forall k' q' issuer, asked (history E w xs) k' (RDevValidate (Some q')) -> user_key E issuer (vv_user_code q') = user_key E (dr_issuer dq) (dv_user_code dres) -> k' = k).
Proof.
  exists (demo_ext); exists (w0s); exists (x_device); exists (firstn 0 (history demo_ext w0s x_device)); exists (firstn 6 (skipn 0 (history demo_ext w0s x_device))); exists (skipn 6 (skipn 0 (history demo_ext w0s x_device))); exists (0%nat); eexists; eexists; exists (1%nat); eexists; eexists.
  meet.
  all: meet_live.
Qed.

(** ** C86 Valid authorization requests are accepted *)

Theorem C86_valid_request_is_authorized : forall E w xs k q r c o,
  no_faults xs -> asked (history E w xs) k (RAuthorize (Some q)) -> In (EvDone k o) (history E w xs) ->
  zq_issuer q <> ""%string -> zq_subject q <> ""%string -> zq_request q = Some r -> ar_request_uri r = None ->
  well_formed E r -> w_clients w (ar_client_id r) = Some c -> permitted E c r -> codes_work (history E w xs) k ->
  exists res, o = Done (PAuthorize res) /\ zr_err res = false /\ zr_state res = ar_state r /\
    zr_redirect_uri res = ar_redirect_uri r /\ zr_client_id res = ar_client_id r /\ zr_issuer res = zq_issuer q.
Proof. exact C86_valid_request_is_authorized_proof. Qed.
Print Assumptions C86_valid_request_is_authorized.
Example C86_valid_request_is_authorized_met : exists E w xs k q r c o,
  no_faults xs /\
  asked (history E w xs) k (RAuthorize (Some q)) /\
  In (EvDone k o) (history E w xs) /\
  zq_issuer q <> ""%string /\
  zq_subject q <> ""%string /\
  zq_request q = Some r /\
  ar_request_uri r = None /\
  well_formed E r /\
  w_clients w (ar_client_id r) = Some c /\
  permitted E c r /\
  codes_work (history E w xs) k.
Proof.
  exists (demo_ext); exists (w0); exists (x_code); exists (0%nat); eexists; exists (areq all_scope (Some "consent"%string)); exists (webapp); eexists.
  meet.
  all: meet_live.
Qed.

Theorem C86_valid_request_is_registered : forall E w xs g gq r auth c o,
  no_faults xs -> asked (history E w xs) g (RRegister (Some gq)) -> In (EvDone g o) (history E w xs) ->
  gq_issuer gq <> ""%string -> gq_request gq = Some r -> ar_request_uri r = None ->
  gq_client gq = Some auth -> ar_client_id r = cl_id auth ->
  well_formed E r -> w_clients w (ar_client_id r) = Some c -> permitted E c r -> codes_work (history E w xs) g ->
  exists res, o = Done (PRegister res) /\ gr_err res = false /\ gr_expires_in res = 60%N.
Proof. exact C86_valid_request_is_registered_proof. Qed.
Print Assumptions C86_valid_request_is_registered.
Example C86_valid_request_is_registered_met : exists E w xs g gq r auth c o,
  no_faults xs /\
  asked (history E w xs) g (RRegister (Some gq)) /\
  In (EvDone g o) (history E w xs) /\
  gq_issuer gq <> ""%string /\
  gq_request gq = Some r /\
  ar_request_uri r = None /\
  gq_client gq = Some auth /\
  ar_client_id r = cl_id auth /\
  well_formed E r /\
  w_clients w (ar_client_id r) = Some c /\
  permitted E c r /\
  codes_work (history E w xs) g.
Proof.
  exists (demo_ext); exists (w0); exists (x_par); exists (0%nat); exists (pushreq); eexists; exists (webapp); exists (webapp); eexists.
  meet.
  all: meet_live.
Qed.

(** ** C87 A pushed request is authorized *)

Theorem C87_pushed_request_is_authorized : forall E w xs h0 h1 h2 g gq r gres k q r0 o,
  no_faults xs ->
  history E w xs = (h0 ++ h1 ++ h2)%list -> (elapsed (h1 ++ h2) <= 60 * second)%N ->
  (* a client pushes a request *)
  answered h1 g (RRegister (Some gq)) (PRegister gres) -> gr_err gres = false -> gq_request gq = Some r ->
  (* within a minute a user follows the request_uri *)
  In (EvStart k (RAuthorize (Some q))) h2 -> In (EvDone k o) h2 ->
  zq_issuer q = gq_issuer gq -> zq_subject q <> ""%string ->
  zq_request q = Some r0 -> ar_request_uri r0 = Some (gr_request_uri gres) ->
  x_uri_valid E (gr_request_uri gres) = true -> codes_work (history E w xs) k ->
  (* nobody else has that request_uri *)
  (forall g' iss' uri' s a, In (EvCall g' (CReqReg iss' uri' s) a) (h1 ++ h2) ->
     req_key E iss' uri' = req_key E (gq_issuer gq) (gr_request_uri gres) -> g' = g) ->
  (forall k' q' r' uri', asked (history E w xs) k' (RAuthorize (Some q')) -> zq_request q' = Some r' ->
     ar_request_uri r' = Some uri' ->
     req_key E (zq_issuer q') uri' = req_key E (gq_issuer gq) (gr_request_uri gres) -> k' = k) ->
  (exists res, o = Done (PAuthorize res) /\ zr_err res = false /\ zr_state res = ar_state r /\
    zr_redirect_uri res = ar_redirect_uri r /\ zr_client_id res = ar_client_id r /\ zr_issuer res = gq_issuer gq) /\
  (* and the request that is authorized is the one that was pushed *)
  (forall eff, effective (history E w xs) k q eff -> normalized E r eff).
Proof. exact C87_pushed_request_is_authorized_proof. Qed.
Print Assumptions C87_pushed_request_is_authorized.
Example C87_pushed_request_is_authorized_met : exists E w xs h0 h1 h2 g gq r gres k q r0 o,
  no_faults xs /\
  history E w xs = (h0 ++ h1 ++ h2)%list /\
  (elapsed (h1 ++ h2) <= 60 * second)%N /\
  answered h1 g (RRegister (Some gq)) (PRegister gres) /\
  gr_err gres = false /\
  gq_request gq = Some r /\
  In (EvStart k (RAuthorize (Some q))) h2 /\
  In (EvDone k o) h2 /\
  zq_issuer q = gq_issuer gq /\
  zq_subject q <> ""%string /\
  zq_request q = Some r0 /\
  ar_request_uri r0 = Some (gr_request_uri gres) /\
  x_uri_valid E (gr_request_uri gres) = true /\
  codes_work (history E w xs) k /\
  (forall g' iss' uri' s a, In (EvCall g' (CReqReg iss' uri' s) a) (h1 ++ h2) -> req_key E iss' uri' = req_key E (gq_issuer gq) (gr_request_uri gres) -> g' = g) /\
  (forall k' q' r' uri', asked (history E w xs) k' (RAuthorize (Some q')) -> zq_request q' = Some r' -> ar_request_uri r' = Some uri' -> req_key E (zq_issuer q') uri' = req_key E (gq_issuer gq) (gr_request_uri gres) -> k' = k).
Proof.
  exists (demo_ext); exists (w0); exists (x_par); exists (firstn 0 (history demo_ext w0 x_par)); exists (firstn 5 (skipn 0 (history demo_ext w0 x_par))); exists (skipn 5 (skipn 0 (history demo_ext w0 x_par))); exists (0%nat); exists (pushreq); eexists; eexists; exists (1%nat); exists (byuri); exists (frontreq); eexists.
  meet.
  all: meet_live.
Qed.
