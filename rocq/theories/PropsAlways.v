(** * What always goes wrong: the theorems

    Written by tools/gen_props.py: the statements are those of the lemmas proved in
    PfAlways.
    Below each theorem, a concrete case that meets its hypotheses. *)

From Verif Require Import MeetAlways.

(** ** C03 An authorization code is redeemed at most once under concurrency *)

Theorem C03_every_reader_refuted : forall E w xs h0 h1 h2 k q zres eff i req verifier o,
  no_faults xs ->
  history E w xs = (h0 ++ h1 ++ h2)%list -> (elapsed (h1 ++ h2) <= 60 * second)%N ->
  (* a user authorizes a client to act for them, for a scope with openid *)
  authorize_ok_at h1 k q zres -> effective h1 k q eff -> asks E (ar_scope eff) "openid" ->
  (* within a minute that client redeems the code *)
  In (EvStart i (RToken (Some req))) h2 -> In (EvDone i o) h2 ->
  by_client req (zr_client_id zres) -> tq_issuer req = zq_issuer q -> x_request_uri E (tq_issuer req) = true ->
  tq_grant_type req = "authorization_code"%string ->
  tq_grant req = GAuthorizationCode (zr_code zres) (zr_redirect_uri zres) verifier ->
  (43 <= String.length verifier <= 128)%nat -> b64url (x_sha256 E verifier) = ar_code_challenge eff ->
  zr_code zres <> ""%string -> (rune_count (zr_code zres) <= 1024)%nat ->
  generators_work (history E w xs) i ->
  (* nobody else was given that code *)
  (forall k' iss' code' s a, In (EvCall k' (CSessReg iss' code' s) a) (h1 ++ h2) ->
     sess_key E iss' code' = sess_key E (zq_issuer q) (zr_code zres) -> k' = k) ->
  (* and it is looked up before it is deleted, whoever else has looked it up *)
  (forall l1 a l2, history E w xs = (l1 ++ EvCall i (CSessGet (tq_issuer req) (zr_code zres)) a :: l2)%list ->
     forall j iss' code' b, In (EvCall j (CSessDel iss' code') b) l1 ->
     sess_key E iss' code' <> sess_key E (zq_issuer q) (zr_code zres)) ->
  exists res, o = Done (PToken res) /\ tr_err res = false /\ tr_at res <> None /\
    (asks E (ar_scope eff) "offline_access" -> ar_prompt eff = Some "consent"%string -> tr_rt res <> None).
Proof. exact C03_every_reader_refuted_proof. Qed.
Print Assumptions C03_every_reader_refuted.
Example C03_every_reader_refuted_met : exists E w xs h0 h1 h2 k q zres eff i req verifier o,
  no_faults xs /\
  history E w xs = (h0 ++ h1 ++ h2)%list /\
  (elapsed (h1 ++ h2) <= 60 * second)%N /\
  authorize_ok_at h1 k q zres /\
  effective h1 k q eff /\
  asks E (ar_scope eff) "openid" /\
  In (EvStart i (RToken (Some req))) h2 /\
  In (EvDone i o) h2 /\
  by_client req (zr_client_id zres) /\
  tq_issuer req = zq_issuer q /\
  x_request_uri E (tq_issuer req) = true /\
  tq_grant_type req = "authorization_code"%string /\
  tq_grant req = GAuthorizationCode (zr_code zres) (zr_redirect_uri zres) verifier /\
  (43 <= String.length verifier <= 128)%nat /\
  b64url (x_sha256 E verifier) = ar_code_challenge eff /\
  zr_code zres <> ""%string /\
  (rune_count (zr_code zres) <= 1024)%nat /\
  generators_work (history E w xs) i /\
  (forall k' iss' code' s a, In (EvCall k' (CSessReg iss' code' s) a) (h1 ++ h2) -> sess_key E iss' code' = sess_key E (zq_issuer q) (zr_code zres) -> k' = k) /\
  (forall l1 a l2, history E w xs = (l1 ++ EvCall i (CSessGet (tq_issuer req) (zr_code zres)) a :: l2)%list -> forall j iss' code' b, In (EvCall j (CSessDel iss' code') b) l1 -> sess_key E iss' code' <> sess_key E (zq_issuer q) (zr_code zres)).
Proof.
  exists (demo_ext); exists (w0); exists (x_race); exists (firstn 0 (history demo_ext w0 x_race)); exists (firstn 5 (skipn 0 (history demo_ext w0 x_race))); exists (skipn 5 (skipn 0 (history demo_ext w0 x_race))); exists (0%nat); eexists; eexists; exists (areq all_scope (Some "consent"%string)); exists (2%nat); exists (redeem webapp "code-1"); exists (verifier); eexists.
  meet.
  all: lazymatch goal with |- forall l1 a l2, _ = app _ _ -> _ => idtac | |- forall k' iss' code' s a, _ => intros k' iss' code' s a Hin _; exact (race_once _ _ _ _ _ Hin) | |- _ => meet_live end.
  intros l1 a l2 Hh j iss' code' b Hin _. exact (no_deletion_before _ _ _ _ race_clear l1 a l2 Hh j iss' code' b Hin).
Qed.

(** ** C06 An authorization code only works for the client it was issued to *)

Theorem C06_any_client_refuted : forall E w xs h0 h1 h2 k q zres eff i req c verifier o,
  registry_ok w -> no_faults xs ->
  history E w xs = (h0 ++ h1 ++ h2)%list -> (elapsed (h1 ++ h2) <= 60 * second)%N ->
  (* a user authorizes a client to act for them, for a scope with openid *)
  authorize_ok_at h1 k q zres -> effective h1 k q eff -> asks E (ar_scope eff) "openid" ->
  (* within a minute a client with the same redirect URI redeems the code *)
  In (EvStart i (RToken (Some req))) h2 -> In (EvDone i o) h2 ->
  client_of w req c -> listed E (cl_grant_types c) "authorization_code" ->
  listed E (cl_redirect_uris c) (zr_redirect_uri zres) ->
  tq_issuer req = zq_issuer q -> x_request_uri E (tq_issuer req) = true ->
  tq_grant_type req = "authorization_code"%string ->
  tq_grant req = GAuthorizationCode (zr_code zres) (zr_redirect_uri zres) verifier ->
  (43 <= String.length verifier <= 128)%nat -> b64url (x_sha256 E verifier) = ar_code_challenge eff ->
  zr_code zres <> ""%string -> (rune_count (zr_code zres) <= 1024)%nat ->
  generators_work (history E w xs) i ->
  (* nobody else was given that code, and it is looked up before it is deleted *)
  (forall k' iss' code' s a, In (EvCall k' (CSessReg iss' code' s) a) (h1 ++ h2) ->
     sess_key E iss' code' = sess_key E (zq_issuer q) (zr_code zres) -> k' = k) ->
  (forall l1 a l2, history E w xs = (l1 ++ EvCall i (CSessGet (tq_issuer req) (zr_code zres)) a :: l2)%list ->
     forall j iss' code' b, In (EvCall j (CSessDel iss' code') b) l1 ->
     sess_key E iss' code' <> sess_key E (zq_issuer q) (zr_code zres)) ->
  (* it gets an access token for that user, whichever client was authorized *)
  exists res t m, o = Done (PToken res) /\ tr_err res = false /\ tr_at res = Some t /\ t_meta t = Some m /\
    m_subject m = zq_subject q /\ by_client req (m_client_id m).
Proof. exact C06_any_client_refuted_proof. Qed.
Print Assumptions C06_any_client_refuted.
Example C06_any_client_refuted_met : exists E w xs h0 h1 h2 k q zres eff i req c verifier o,
  registry_ok w /\
  no_faults xs /\
  history E w xs = (h0 ++ h1 ++ h2)%list /\
  (elapsed (h1 ++ h2) <= 60 * second)%N /\
  authorize_ok_at h1 k q zres /\
  effective h1 k q eff /\
  asks E (ar_scope eff) "openid" /\
  In (EvStart i (RToken (Some req))) h2 /\
  In (EvDone i o) h2 /\
  client_of w req c /\
  listed E (cl_grant_types c) "authorization_code" /\
  listed E (cl_redirect_uris c) (zr_redirect_uri zres) /\
  tq_issuer req = zq_issuer q /\
  x_request_uri E (tq_issuer req) = true /\
  tq_grant_type req = "authorization_code"%string /\
  tq_grant req = GAuthorizationCode (zr_code zres) (zr_redirect_uri zres) verifier /\
  (43 <= String.length verifier <= 128)%nat /\
  b64url (x_sha256 E verifier) = ar_code_challenge eff /\
  zr_code zres <> ""%string /\
  (rune_count (zr_code zres) <= 1024)%nat /\
  generators_work (history E w xs) i /\
  (forall k' iss' code' s a, In (EvCall k' (CSessReg iss' code' s) a) (h1 ++ h2) -> sess_key E iss' code' = sess_key E (zq_issuer q) (zr_code zres) -> k' = k) /\
  (forall l1 a l2, history E w xs = (l1 ++ EvCall i (CSessGet (tq_issuer req) (zr_code zres)) a :: l2)%list -> forall j iss' code' b, In (EvCall j (CSessDel iss' code') b) l1 -> sess_key E iss' code' <> sess_key E (zq_issuer q) (zr_code zres)).
Proof.
  exists (demo_ext); exists (w0); exists (x_steal); exists (firstn 0 (history demo_ext w0 x_steal)); exists (firstn 5 (skipn 0 (history demo_ext w0 x_steal))); exists (skipn 5 (skipn 0 (history demo_ext w0 x_steal))); exists (0%nat); eexists; eexists; exists (areq all_scope (Some "consent"%string)); exists (1%nat); exists (redeem evil "code-1"); exists (evil); exists (verifier); eexists.
  meet.
  all: lazymatch goal with |- forall l1 a l2, _ = app _ _ -> _ => idtac | |- forall k' iss' code' s a, _ => intros k' iss' code' s a Hin _; exact (steal_once _ _ _ _ _ Hin) | |- _ => meet_live end.
  intros l1 a l2 Hh j iss' code' b Hin _. exact (no_deletion_before _ _ _ _ steal_clear l1 a l2 Hh j iss' code' b Hin).
Qed.

(** ** C09 A refresh token is invalidated when it is used *)

Theorem C09_unrevoked_refuted : forall E w xs h1 h2 k req0 res0 t m i req c o,
  no_tokens w -> no_faults xs -> no_reuse E (history E w xs) -> history E w xs = (h1 ++ h2)%list ->
  (* a refresh token was handed out *)
  token_ok h1 k req0 res0 -> In t (tokens_of res0) -> t_type t = TtRefresh -> t_meta t = Some m ->
  (* later its client presents it, where it was issued and before it expires *)
  In (EvStart i (RToken (Some req))) h2 -> In (EvDone i o) h2 ->
  tq_grant_type req = "refresh_token"%string -> tq_grant req = GRefreshToken (t_value t) ->
  tq_issuer req = m_issuer m -> tq_issuer req <> ""%string -> x_request_uri E (tq_issuer req) = true ->
  client_of w req c -> cl_id c = m_client_id m -> listed E (cl_grant_types c) "refresh_token" ->
  (unix (clock w (history E w xs)) <= m_expires_at m)%N -> generators_work (history E w xs) i ->
  (* and it is looked up before it is revoked, however often it was used *)
  (forall l1 a l2, history E w xs = (l1 ++ EvCall i (CTokGet (tq_issuer req) (t_value t)) a :: l2)%list ->
     forall j iss' b, ~ In (EvCall j (CTokRevoke iss' (t_id t)) b) l1) ->
  exists res, o = Done (PToken res) /\ tr_err res = false /\ tr_at res <> None.
Proof. exact C09_unrevoked_refuted_proof. Qed.
Print Assumptions C09_unrevoked_refuted.
Example C09_unrevoked_refuted_met : exists E w xs h1 h2 k req0 res0 t m i req c o,
  no_tokens w /\
  no_faults xs /\
  no_reuse E (history E w xs) /\
  history E w xs = (h1 ++ h2)%list /\
  token_ok h1 k req0 res0 /\
  In t (tokens_of res0) /\
  t_type t = TtRefresh /\
  t_meta t = Some m /\
  In (EvStart i (RToken (Some req))) h2 /\
  In (EvDone i o) h2 /\
  tq_grant_type req = "refresh_token"%string /\
  tq_grant req = GRefreshToken (t_value t) /\
  tq_issuer req = m_issuer m /\
  tq_issuer req <> ""%string /\
  x_request_uri E (tq_issuer req) = true /\
  client_of w req c /\
  cl_id c = m_client_id m /\
  listed E (cl_grant_types c) "refresh_token" /\
  (unix (clock w (history E w xs)) <= m_expires_at m)%N /\
  generators_work (history E w xs) i /\
  (forall l1 a l2, history E w xs = (l1 ++ EvCall i (CTokGet (tq_issuer req) (t_value t)) a :: l2)%list -> forall j iss' b, ~ In (EvCall j (CTokRevoke iss' (t_id t)) b) l1).
Proof.
  exists (demo_ext); exists (w0); exists (x_refresh2); exists (firstn 18 (history demo_ext w0 x_refresh2)); exists (skipn 18 (history demo_ext w0 x_refresh2)); exists (1%nat); exists (redeem webapp "code-1"); eexists; exists (rt_demo); eexists; exists (3%nat); exists (refreshreq webapp "rt-1"); exists (webapp); eexists.
  meet.
  all: lazymatch goal with |- forall l1 a l2, _ = app _ _ -> _ => idtac | |- _ => meet_live end.
  exact (no_revocation_before _ _ _ _ _ refresh2_clear).
Qed.

(** ** C11 Only the owner revokes a token *)

Theorem C11_anyone_refuted : forall E w xs h1 h2 t i q auth c o,
  no_tokens w -> no_faults xs -> no_reuse E (history E w xs) -> history E w xs = (h1 ++ h2)%list ->
  (* whatever token is stored, and whoever's *)
  stored_as E h1 (vq_issuer q) (vq_token q) t ->
  (* any registered client that presents its value *)
  In (EvStart i (RRevoke (Some q))) h2 -> In (EvDone i o) h2 ->
  vq_client q = Some auth -> w_clients w (cl_id auth) = Some c ->
  vq_token q <> ""%string -> vq_issuer q <> ""%string -> x_request_uri E (vq_issuer q) = true ->
  (* revokes it *)
  exists res, o = Done (PRevoke res) /\ rr_err res = false.
Proof. exact C11_anyone_refuted_proof. Qed.
Print Assumptions C11_anyone_refuted.
Example C11_anyone_refuted_met : exists E w xs h1 h2 t i q auth c o,
  no_tokens w /\
  no_faults xs /\
  no_reuse E (history E w xs) /\
  history E w xs = (h1 ++ h2)%list /\
  stored_as E h1 (vq_issuer q) (vq_token q) t /\
  In (EvStart i (RRevoke (Some q))) h2 /\
  In (EvDone i o) h2 /\
  vq_client q = Some auth /\
  w_clients w (cl_id auth) = Some c /\
  vq_token q <> ""%string /\
  vq_issuer q <> ""%string /\
  x_request_uri E (vq_issuer q) = true.
Proof.
  exists (demo_ext); exists (w0); exists (x_revoke); exists (firstn 18 (history demo_ext w0 x_revoke)); exists (skipn 18 (history demo_ext w0 x_revoke)); eexists; exists (3%nat); exists (mkValReq iss (Some evil) "at-1"); exists (evil); eexists; eexists.
  meet.
  do 3 eexists. split; [eapply nth_error_In with (n := 12%nat); vm_compute; reflexivity|vm_compute; reflexivity].
Qed.

(** ** C13 Token exchange does not widen scope *)

Theorem C13_any_scope_refuted : forall E w xs i req res scope,
  token_ok (history E w xs) i req res ->
  tq_grant_type req = "urn:ietf:params:oauth:grant-type:token-exchange"%string -> tq_scope req = Some scope ->
  exists nt mt, tr_at res = Some nt /\ tokens_of res = [nt] /\ t_meta nt = Some mt /\ m_scope mt = scope.
Proof. exact C13_any_scope_refuted_proof. Qed.
Print Assumptions C13_any_scope_refuted.
Example C13_any_scope_refuted_met : exists E w xs i req res scope,
  token_ok (history E w xs) i req res /\
  tq_grant_type req = "urn:ietf:params:oauth:grant-type:token-exchange"%string /\
  tq_scope req = Some scope.
Proof.
  exists (demo_ext); exists (w0); exists (x_widen); exists (2%nat); exists (exchangereq webapp "at-1" (Some "admin")); eexists; eexists.
  meet.
Qed.

(** ** C16 A device code yields tokens at most once *)

Theorem C16_every_poll_refuted : forall E w xs h0 h1 h2 d dq dres k q vres req c code polls,
  blank w -> no_faults xs -> no_reuse E (history E w xs) ->
  (* the store marks new device sessions as pending, valid for 120 s *)
  w_stamp w = stamping 120 ->
  history E w xs = (h0 ++ h1 ++ h2)%list -> (elapsed (h1 ++ h2) <= 120 * second)%N ->
  device_codes_apart E (history E w xs) ->
  (* a device asks for codes, a user approves *)
  answered h1 d (RDevAuthorize (Some dq)) (PDevAuthorize dres) -> dv_err dres = false ->
  answered h1 k (RDevValidate (Some q)) (PDevValidate vres) -> vr_err vres = false ->
  vv_issuer q = dr_issuer dq -> vv_user_code q = dv_user_code dres ->
  (* then the device polls, any number of times *)
  NoDup polls ->
  (forall i, In i polls -> In (EvStart i (RToken (Some req))) h2 /\ (exists o, In (EvDone i o) h2) /\
     generators_work (history E w xs) i) ->
  tq_grant_type req = "urn:ietf:params:oauth:grant-type:device_code"%string ->
  tq_grant req = GDeviceCode code -> code = dv_device_code dres -> code <> ""%string ->
  tq_issuer req = dr_issuer dq -> x_request_uri E (tq_issuer req) = true ->
  client_of w req c -> cl_id c = dr_client_id dq -> listed E (cl_grant_types c) "urn:ietf:params:oauth:grant-type:device_code" ->
  (* and gets as many different tokens *)
  exists tokens, Forall2 (fun i t => exists res, token_ok (history E w xs) i req res /\ tr_at res = Some t) polls tokens /\
    NoDup (map t_id tokens).
Proof. exact C16_every_poll_refuted_proof. Qed.
Print Assumptions C16_every_poll_refuted.
Example C16_every_poll_refuted_met : exists E w xs h0 h1 h2 d dq dres k q vres req c code polls,
  blank w /\
  no_faults xs /\
  no_reuse E (history E w xs) /\
  w_stamp w = stamping 120 /\
  history E w xs = (h0 ++ h1 ++ h2)%list /\
  (elapsed (h1 ++ h2) <= 120 * second)%N /\
  device_codes_apart E (history E w xs) /\
  answered h1 d (RDevAuthorize (Some dq)) (PDevAuthorize dres) /\
  dv_err dres = false /\
  answered h1 k (RDevValidate (Some q)) (PDevValidate vres) /\
  vr_err vres = false /\
  vv_issuer q = dr_issuer dq /\
  vv_user_code q = dv_user_code dres /\
  NoDup polls /\
  (forall i, In i polls -> In (EvStart i (RToken (Some req))) h2 /\ (exists o, In (EvDone i o) h2) /\ generators_work (history E w xs) i) /\
  tq_grant_type req = "urn:ietf:params:oauth:grant-type:device_code"%string /\
  tq_grant req = GDeviceCode code /\
  code = dv_device_code dres /\
  code <> ""%string /\
  tq_issuer req = dr_issuer dq /\
  x_request_uri E (tq_issuer req) = true /\
  client_of w req c /\
  cl_id c = dr_client_id dq /\
  listed E (cl_grant_types c) "urn:ietf:params:oauth:grant-type:device_code".
Proof.
  exists (demo_ext); exists (w0s); exists (x_poll2); exists (firstn 0 (history demo_ext w0s x_poll2)); exists (firstn 12 (skipn 0 (history demo_ext w0s x_poll2))); exists (skipn 12 (skipn 0 (history demo_ext w0s x_poll2))); exists (0%nat); eexists; eexists; exists (1%nat); eexists; eexists; exists (pollreq webapp "device-1"); exists (webapp); exists ("device-1"%string); exists (2%nat :: 3%nat :: nil).
  meet.
  - constructor; [intros [X|[]]; discriminate X|]. constructor; [intros []|constructor].
  - intros i [<-|[<-|[]]]; (split; [meet1|]; split; [eexists; meet1|meet1]).
  - eexists. split; reflexivity.
  - eexists. split; [right; right; right; left; reflexivity|reflexivity].
Qed.

(** ** C27 No offline access without consent *)

Theorem C27_listed_twice_refuted : forall E w xs h0 h1 h2 k q zres eff i req verifier o,
  no_faults xs ->
  history E w xs = (h0 ++ h1 ++ h2)%list -> (elapsed (h1 ++ h2) <= 60 * second)%N ->
  (* a user authorizes a client, which names offline_access twice and need not ask for consent *)
  authorize_ok_at h1 k q zres -> effective h1 k q eff -> asks E (ar_scope eff) "openid" ->
  asks_twice E (ar_scope eff) "offline_access" ->
  (* within a minute that client redeems the code *)
  In (EvStart i (RToken (Some req))) h2 -> In (EvDone i o) h2 ->
  by_client req (zr_client_id zres) -> tq_issuer req = zq_issuer q -> x_request_uri E (tq_issuer req) = true ->
  tq_grant_type req = "authorization_code"%string ->
  tq_grant req = GAuthorizationCode (zr_code zres) (zr_redirect_uri zres) verifier ->
  (43 <= String.length verifier <= 128)%nat -> b64url (x_sha256 E verifier) = ar_code_challenge eff ->
  zr_code zres <> ""%string -> (rune_count (zr_code zres) <= 1024)%nat ->
  generators_work (history E w xs) i ->
  (* nobody else was given that code, and it is looked up before it is deleted *)
  (forall k' iss' code' s a, In (EvCall k' (CSessReg iss' code' s) a) (h1 ++ h2) ->
     sess_key E iss' code' = sess_key E (zq_issuer q) (zr_code zres) -> k' = k) ->
  (forall l1 a l2, history E w xs = (l1 ++ EvCall i (CSessGet (tq_issuer req) (zr_code zres)) a :: l2)%list ->
     forall j iss' code' b, In (EvCall j (CSessDel iss' code') b) l1 ->
     sess_key E iss' code' <> sess_key E (zq_issuer q) (zr_code zres)) ->
  exists res t m, o = Done (PToken res) /\ tr_err res = false /\ tr_rt res = Some t /\ t_meta t = Some m /\
    m_subject m = zq_subject q /\ asks E (m_scope m) "offline_access".
Proof. exact C27_listed_twice_refuted_proof. Qed.
Print Assumptions C27_listed_twice_refuted.
Example C27_listed_twice_refuted_met : exists E w xs h0 h1 h2 k q zres eff i req verifier o,
  no_faults xs /\
  history E w xs = (h0 ++ h1 ++ h2)%list /\
  (elapsed (h1 ++ h2) <= 60 * second)%N /\
  authorize_ok_at h1 k q zres /\
  effective h1 k q eff /\
  asks E (ar_scope eff) "openid" /\
  asks_twice E (ar_scope eff) "offline_access" /\
  In (EvStart i (RToken (Some req))) h2 /\
  In (EvDone i o) h2 /\
  by_client req (zr_client_id zres) /\
  tq_issuer req = zq_issuer q /\
  x_request_uri E (tq_issuer req) = true /\
  tq_grant_type req = "authorization_code"%string /\
  tq_grant req = GAuthorizationCode (zr_code zres) (zr_redirect_uri zres) verifier /\
  (43 <= String.length verifier <= 128)%nat /\
  b64url (x_sha256 E verifier) = ar_code_challenge eff /\
  zr_code zres <> ""%string /\
  (rune_count (zr_code zres) <= 1024)%nat /\
  generators_work (history E w xs) i /\
  (forall k' iss' code' s a, In (EvCall k' (CSessReg iss' code' s) a) (h1 ++ h2) -> sess_key E iss' code' = sess_key E (zq_issuer q) (zr_code zres) -> k' = k) /\
  (forall l1 a l2, history E w xs = (l1 ++ EvCall i (CSessGet (tq_issuer req) (zr_code zres)) a :: l2)%list -> forall j iss' code' b, In (EvCall j (CSessDel iss' code') b) l1 -> sess_key E iss' code' <> sess_key E (zq_issuer q) (zr_code zres)).
Proof.
  exists (demo_ext); exists (w0); exists (x_twice); exists (firstn 0 (history demo_ext w0 x_twice)); exists (firstn 5 (skipn 0 (history demo_ext w0 x_twice))); exists (skipn 5 (skipn 0 (history demo_ext w0 x_twice))); exists (0%nat); eexists; eexists; exists (areq "openid offline_access offline_access" None); exists (1%nat); exists (redeem webapp "code-1"); exists (verifier); eexists.
  meet.
  all: lazymatch goal with |- forall l1 a l2, _ = app _ _ -> _ => idtac | |- forall k' iss' code' s a, _ => intros k' iss' code' s a Hin _; exact (twice_once _ _ _ _ _ Hin) | |- asks_twice _ _ _ => exists ["openid"%string], "offline_access"%string, (@nil string), "offline_access"%string, (@nil string); split; [vm_compute; reflexivity|split; vm_compute; reflexivity] | |- _ => meet_live end.
  intros l1 a l2 Hh j iss' code' b Hin _. exact (no_deletion_before _ _ _ _ twice_clear l1 a l2 Hh j iss' code' b Hin).
Qed.

(** ** C33 A client assertion is for this server and used once *)

Theorem C33_until_expiry_refuted : forall E w xs i j req a cl c o,
  no_faults xs -> authenticates (history E w xs) i (RAssertion (Some req)) c ->
  aq_assertion req = Some a -> x_payload E KAssertion a = Some cl -> (unix (clock w (history E w xs)) <= c_exp cl)%N ->
  (* whoever presents it again, before or after *)
  In (EvStart j (RAssertion (Some req))) (history E w xs) -> In (EvDone j o) (history E w xs) ->
  authenticates (history E w xs) j (RAssertion (Some req)) c.
Proof. exact C33_until_expiry_refuted_proof. Qed.
Print Assumptions C33_until_expiry_refuted.
Example C33_until_expiry_refuted_met : exists E w xs i j req a cl c o,
  no_faults xs /\
  authenticates (history E w xs) i (RAssertion (Some req)) c /\
  aq_assertion req = Some a /\
  x_payload E KAssertion a = Some cl /\
  (unix (clock w (history E w xs)) <= c_exp cl)%N /\
  In (EvStart j (RAssertion (Some req))) (history E w xs) /\
  In (EvDone j o) (history E w xs).
Proof.
  exists (other_ext); exists (w0); exists (x_assertions); exists (0%nat); exists (1%nat); eexists; eexists; eexists; eexists; eexists.
  meet.
Qed.

(** ** C37 A DPoP proof is accepted at most once under concurrency *)

Theorem C37_every_checker_refuted : forall E w xs i j htm htu proof tv tc thumb cl o,
  no_faults xs -> dpop_accepts (history E w xs) i htm htu proof tv tc thumb -> x_payload E KDpop proof = Some cl ->
  (* another verification of that proof, while it is fresh, *)
  In (EvStart j (RDpop htm htu proof tv tc)) (history E w xs) -> In (EvDone j o) (history E w xs) ->
  (forall t, In (EvCall j CNow (ATime t)) (history E w xs) ->
     unix (t - 15 * second) <= c_iat cl <= unix (t + 15 * second))%N ->
  (* that finds it new *)
  (forall a, In (EvCall j (CProofExists (proof_id E cl)) a) (history E w xs) -> a = ABool (SOk false)) ->
  dpop_accepts (history E w xs) j htm htu proof tv tc thumb.
Proof. exact C37_every_checker_refuted_proof. Qed.
Print Assumptions C37_every_checker_refuted.
Example C37_every_checker_refuted_met : exists E w xs i j htm htu proof tv tc thumb cl o,
  no_faults xs /\
  dpop_accepts (history E w xs) i htm htu proof tv tc thumb /\
  x_payload E KDpop proof = Some cl /\
  In (EvStart j (RDpop htm htu proof tv tc)) (history E w xs) /\
  In (EvDone j o) (history E w xs) /\
  (forall t, In (EvCall j CNow (ATime t)) (history E w xs) -> unix (t - 15 * second) <= c_iat cl <= unix (t + 15 * second))%N /\
  (forall a, In (EvCall j (CProofExists (proof_id E cl)) a) (history E w xs) -> a = ABool (SOk false)).
Proof.
  exists (demo_ext); exists (w0); exists (x_dpop_race); exists (0%nat); exists (1%nat); eexists; eexists; exists ("proof"%string); eexists; eexists; eexists; eexists; eexists.
  meet.
  - apply dpop_times. vm_compute. reflexivity.
  - intros a Hin. refine (dpop_new _ _ _ _ _ Hin). vm_compute. reflexivity.
Qed.
