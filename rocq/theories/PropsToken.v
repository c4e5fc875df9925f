(** * Tokens: the theorems

    Written by tools/gen_props.py: the statements are those of the lemmas proved in
    PfToken, PfErr, PfErr2, PfToken2, PfStore, PfStore2, PfStore3.
    Below each theorem, a concrete case that meets its hypotheses. *)

From Verif Require Import Meet.

(** ** C08 Refresh is only for the owning client and a live refresh token *)

Theorem C08_refresh_gate : forall E w xs i req res,
  registry_ok w -> no_tokens w -> no_reuse E (history E w xs) ->
  token_ok (history E w xs) i req res -> tq_grant_type req = "refresh_token"%string ->
  exists value rt m h1 h2,
    presents_refresh req (tq_issuer req) value /\
    history E w xs = (h1 ++ h2)%list /\ during h1 i (RToken (Some req)) /\
    live_as E h1 (tq_issuer req) value rt /\
    t_type rt = TtRefresh /\ t_status rt = TsActive /\ t_meta rt = Some m /\
    (unix (clock w h1) <= m_expires_at m)%N /\ by_client req (m_client_id m) /\
    tr_at res <> None /\ tr_idt res = None /\
    (forall t, tr_at res = Some t -> t_type t = TtAccess) /\
    (forall t, tr_rt res = Some t -> t_type t = TtRefresh) /\
    (forall t, In t (tokens_of res) -> exists mt, t_meta t = Some mt /\
       m_issuer mt = m_issuer m /\ m_subject mt = m_subject m /\ m_scope mt = m_scope m /\
       m_audience mt = m_audience m /\ by_client req (m_client_id mt) /\ t_cnf t = t_cnf rt).
Proof. exact C08_refresh_gate_proof. Qed.
Print Assumptions C08_refresh_gate.
Example C08_refresh_gate_met : exists E w xs i req res,
  registry_ok w /\
  no_tokens w /\
  no_reuse E (history E w xs) /\
  token_ok (history E w xs) i req res /\
  tq_grant_type req = "refresh_token"%string.
Proof.
  exists (demo_ext); exists (w0); exists (x_refresh); exists (2%nat); exists (refreshreq webapp "rt-1"); eexists.
  meet.
Qed.

(** ** C09 A refresh token is invalidated when it is used *)

Theorem C09_refresh_rotation_partial : forall E w xs h1 h2 i j req1 req2 res1 issuer value,
  no_tokens w -> no_reuse E (history E w xs) ->
  history E w xs = (h1 ++ h2)%list ->
  token_ok h1 i req1 res1 -> presents_refresh req1 issuer value ->
  (* the response of the first refresh carries a new refresh token *)
  tr_rt res1 <> None ->
  In (EvStart j (RToken (Some req2))) h2 -> presents_refresh req2 issuer value ->
  (forall res2, ~ token_ok (history E w xs) j req2 res2) /\
  (forall iss t a, ~ In (EvCall j (CTokCreate iss t) a) (history E w xs)).
Proof. exact C09_refresh_rotation_partial_proof. Qed.
Print Assumptions C09_refresh_rotation_partial.
Example C09_refresh_rotation_partial_met : exists E w xs h1 h2 i j req1 req2 res1 issuer value,
  no_tokens w /\
  no_reuse E (history E w xs) /\
  history E w xs = (h1 ++ h2)%list /\
  token_ok h1 i req1 res1 /\
  presents_refresh req1 issuer value /\
  tr_rt res1 <> None /\
  In (EvStart j (RToken (Some req2))) h2 /\
  presents_refresh req2 issuer value.
Proof.
  exists (demo_ext); exists (w0); exists (x_rotate); exists (firstn 33 (history demo_ext w0 x_rotate)); exists (skipn 33 (history demo_ext w0 x_rotate)); exists (2%nat); exists (3%nat); exists (refreshreq webapp "rt-1"); exists (refreshreq webapp "rt-1"); eexists; exists (iss); exists ("rt-1"%string).
  meet.
Qed.

Theorem C09_refresh_reuse_refuted : exists E w xs h1 h2 i j req1 req2 res1 res2 issuer value,
    blank w /\ registry_ok w /\ no_faults xs /\ history E w xs = (h1 ++ h2)%list /\
    token_ok h1 i req1 res1 /\ presents_refresh req1 issuer value /\
    In (EvStart j (RToken (Some req2))) h2 /\ presents_refresh req2 issuer value /\
    token_ok (history E w xs) j req2 res2.
Proof. exact C09_refresh_reuse_refuted_proof. Qed.
Print Assumptions C09_refresh_reuse_refuted.
(* The theorem is itself a concrete case. *)

(** ** C10 Revocation is permanent *)

Theorem C10_revocation_permanent : forall E w xs h1 h2 i req res,
  no_tokens w -> no_reuse E (history E w xs) -> history E w xs = (h1 ++ h2)%list ->
  answered h1 i (RRevoke (Some req)) (PRevoke res) -> rr_err res = false ->
  (forall j req2, In (EvStart j (RToken (Some req2))) h2 ->
     presents_refresh req2 (vq_issuer req) (vq_token req) \/ presents_subject req2 (vq_issuer req) (vq_token req) ->
     (forall res2, ~ token_ok (history E w xs) j req2 res2) /\
     (forall iss t a, ~ In (EvCall j (CTokCreate iss t) a) (history E w xs))) /\
  (forall j req2 res2 t, In (EvStart j (RIntrospect (Some req2))) h2 ->
     vq_issuer req2 = vq_issuer req -> vq_token req2 = vq_token req ->
     answered (history E w xs) j (RIntrospect (Some req2)) (PIntrospect res2) -> ir_token res2 = Some t ->
     t_status t <> TsActive) /\
  (forall j req2 res2, no_faults xs -> In (EvStart j (RIntrospect (Some req2))) h2 ->
     vq_issuer req2 = vq_issuer req -> vq_token req2 = vq_token req ->
     answered (history E w xs) j (RIntrospect (Some req2)) (PIntrospect res2) -> ir_err res2 = false ->
     exists t, ir_token res2 = Some t /\ t_status t = TsRevoked).
Proof. exact C10_revocation_permanent_proof. Qed.
Print Assumptions C10_revocation_permanent.
Example C10_revocation_permanent_met : exists E w xs h1 h2 i req res j req2 k q ires,
  no_tokens w /\ no_reuse E (history E w xs) /\ history E w xs = (h1 ++ h2)%list /\
  answered h1 i (RRevoke (Some req)) (PRevoke res) /\ rr_err res = false /\
  In (EvStart j (RToken (Some req2))) h2 /\ presents_refresh req2 (vq_issuer req) (vq_token req) /\
  no_faults xs /\ In (EvStart k (RIntrospect (Some q))) h2 /\ vq_issuer q = vq_issuer req /\
  vq_token q = vq_token req /\ answered (history E w xs) k (RIntrospect (Some q)) (PIntrospect ires) /\
  ir_err ires = false.
Proof.
  exists demo_ext, w0, x_revoked, (firstn 23 (history demo_ext w0 x_revoked)), (skipn 23 (history demo_ext w0 x_revoked)), 2%nat.
  exists (mkValReq iss (Some webapp) "rt-1"). eexists. exists 3%nat, (refreshreq webapp "rt-1"), 4%nat. do 2 eexists. meet.
Qed.

(** ** C11 Only the owner revokes a token *)

Theorem C11_owner_revokes_refuted : exists E w xs req res owner other r1 r2 t1 t2 m,
    blank w /\ registry_ok w /\ no_faults xs /\
    (* a token of app is active, ... *)
    answered (history E w xs) 2 owner (PIntrospect r1) /\ ir_token r1 = Some t1 /\
    t_status t1 = TsActive /\ t_meta t1 = Some m /\ m_client_id m = "app"%string /\
    (* ... another client revokes it ... *)
    answered (history E w xs) 3 (RRevoke (Some req)) (PRevoke res) /\ rr_err res = false /\
    vq_client req = Some other /\ cl_id other = "evil"%string /\
    (* ... and it is revoked. *)
    answered (history E w xs) 4 owner (PIntrospect r2) /\ ir_token r2 = Some t2 /\
    t_status t2 = TsRevoked /\ t_meta t2 = Some m.
Proof. exact C11_owner_revokes_refuted_proof. Qed.
Print Assumptions C11_owner_revokes_refuted.
(* The theorem is itself a concrete case. *)

Theorem C11_revokes_what_is_presented_partial : forall E w xs h1 i iss' id a h2 req,
  no_tokens w -> history E w xs = (h1 ++ EvCall i (CTokRevoke iss' id) a :: h2)%list ->
  asked (history E w xs) i (RRevoke (Some req)) ->
  exists t, stored_as E h1 (vq_issuer req) (vq_token req) t /\ t_id t = id.
Proof. exact C11_revokes_what_is_presented_partial_proof. Qed.
Print Assumptions C11_revokes_what_is_presented_partial.
Example C11_revokes_what_is_presented_partial_met : exists E w xs h1 i iss' id a h2 req,
  no_tokens w /\
  history E w xs = (h1 ++ EvCall i (CTokRevoke iss' id) a :: h2)%list /\
  asked (history E w xs) i (RRevoke (Some req)).
Proof.
  exists (demo_ext); exists (w0); exists (x_revoked); exists (firstn 21 (history demo_ext w0 x_revoked)); exists (2%nat); eexists; eexists; eexists; exists (skipn 22 (history demo_ext w0 x_revoked)); eexists.
  meet.
Qed.

(** ** C12 Token exchange needs a live access token and keeps its subject *)

Theorem C12_exchange_gate : forall E w xs i req res,
  registry_ok w -> no_tokens w -> no_reuse E (history E w xs) ->
  token_ok (history E w xs) i req res ->
  tq_grant_type req = "urn:ietf:params:oauth:grant-type:token-exchange"%string ->
  exists value st m nt mt h1 h2,
    presents_subject req (tq_issuer req) value /\
    history E w xs = (h1 ++ h2)%list /\ during h1 i (RToken (Some req)) /\
    live_as E h1 (tq_issuer req) value st /\
    t_type st = TtAccess /\ t_status st = TsActive /\ t_meta st = Some m /\
    (unix (clock w h1) <= m_expires_at m)%N /\
    tr_at res = Some nt /\ tokens_of res = [nt] /\ t_type nt = TtAccess /\ t_meta nt = Some mt /\
    m_issuer mt = m_issuer m /\ m_subject mt = m_subject m /\ t_cnf nt = t_cnf st /\
    by_client req (m_client_id mt) /\ m_expires_at mt = (m_issued_at mt + 60)%N.
Proof. exact C12_exchange_gate_proof. Qed.
Print Assumptions C12_exchange_gate.
Example C12_exchange_gate_met : exists E w xs i req res,
  registry_ok w /\
  no_tokens w /\
  no_reuse E (history E w xs) /\
  token_ok (history E w xs) i req res /\
  tq_grant_type req = "urn:ietf:params:oauth:grant-type:token-exchange"%string.
Proof.
  exists (demo_ext); exists (w0); exists (x_exchange); exists (2%nat); exists (exchangereq webapp "at-1" None); eexists.
  meet.
Qed.

(** ** C13 Token exchange does not widen scope *)

Theorem C13_exchange_scope_refuted : exists E w xs i req res value st m nt mt s,
    blank w /\ registry_ok w /\ no_faults xs /\ token_ok (history E w xs) i req res /\
    presents_subject req (tq_issuer req) value /\ stored_as E (history E w xs) (tq_issuer req) value st /\
    t_meta st = Some m /\ tr_at res = Some nt /\ t_meta nt = Some mt /\
    asks E (m_scope mt) s /\ ~ asks E (m_scope m) s.
Proof. exact C13_exchange_scope_refuted_proof. Qed.
Print Assumptions C13_exchange_scope_refuted.
(* The theorem is itself a concrete case. *)

Theorem C13_exchange_scope_partial : forall E w xs i req res,
  no_tokens w -> token_ok (history E w xs) i req res ->
  tq_grant_type req = "urn:ietf:params:oauth:grant-type:token-exchange"%string ->
  (* no scope is requested *)
  tq_scope req = None ->
  exists value st m nt mt,
    presents_subject req (tq_issuer req) value /\ stored_as E (history E w xs) (tq_issuer req) value st /\
    t_meta st = Some m /\ tr_at res = Some nt /\ tokens_of res = [nt] /\ t_meta nt = Some mt /\
    m_scope mt = m_scope m.
Proof. exact C13_exchange_scope_partial_proof. Qed.
Print Assumptions C13_exchange_scope_partial.
Example C13_exchange_scope_partial_met : exists E w xs i req res,
  no_tokens w /\
  token_ok (history E w xs) i req res /\
  tq_grant_type req = "urn:ietf:params:oauth:grant-type:token-exchange"%string /\
  tq_scope req = None.
Proof.
  exists (demo_ext); exists (w0); exists (x_exchange); exists (2%nat); exists (exchangereq webapp "at-1" None); eexists.
  meet.
Qed.

(** ** C17 Introspection tells the truth *)

Theorem C17_introspection : forall E w xs i req res,
  no_tokens w -> no_faults xs -> no_reuse E (history E w xs) ->
  answered (history E w xs) i (RIntrospect (Some req)) (PIntrospect res) -> ir_err res = false ->
  exists h1 h2 t, history E w xs = (h1 ++ h2)%list /\ during h1 i (RIntrospect (Some req)) /\ ir_token res = Some t /\
    (t_status t = TsActive <-> exists t0, live_as E h1 (vq_issuer req) (vq_token req) t0) /\
    (forall t0, stored_as E h1 (vq_issuer req) (vq_token req) t0 ->
       t_id t = t_id t0 /\ t_type t = t_type t0 /\ t_meta t = t_meta t0 /\ t_cnf t = t_cnf t0 /\
       (t_status t = TsActive \/ t_status t = TsRevoked)) /\
    ((forall t0, ~ stored_as E h1 (vq_issuer req) (vq_token req) t0) -> t_status t = TsUnknown /\ t_meta t = None).
Proof. exact C17_introspection_proof. Qed.
Print Assumptions C17_introspection.
Example C17_introspection_met : exists E w xs i req res,
  no_tokens w /\
  no_faults xs /\
  no_reuse E (history E w xs) /\
  answered (history E w xs) i (RIntrospect (Some req)) (PIntrospect res) /\
  ir_err res = false.
Proof.
  exists (demo_ext); exists (w0); exists (x_intro); exists (2%nat); eexists; eexists.
  meet.
Qed.

(** ** C18 A failed token request hands out no token *)

Theorem C18_failure_has_no_token : forall E w xs i req res,
  answered (history E w xs) i (RToken req) (PToken res) ->
  (tr_err res = true -> tr_at res = None /\ tr_rt res = None /\ tr_idt res = None /\ tr_scope res = None) /\
  (tr_err res = false -> tr_error res = None).
Proof. exact C18_failure_has_no_token_proof. Qed.
Print Assumptions C18_failure_has_no_token.
Example C18_failure_has_no_token_met : exists E w xs i req res j req' res',
  answered (history E w xs) i (RToken req) (PToken res) /\ tr_err res = false /\ tr_at res <> None /\
  answered (history E w xs) j (RToken req') (PToken res') /\ tr_err res' = true.
Proof.
  exists demo_ext, w0, x_rotate, 2%nat; eexists; eexists; exists 3%nat; do 2 eexists. meet.
Qed.

(** ** C19 Every failure carries a public error and never a panic *)

Theorem C19_missing_error_refuted : exists E w xs i r p, blank w /\ registry_ok w /\ no_faults xs /\ oauth_service r /\
    answered (history E w xs) i r p /\ failed p = true /\ public_error p = None.
Proof. exact C19_missing_error_refuted_proof. Qed.
Print Assumptions C19_missing_error_refuted.
(* The theorem is itself a concrete case. *)

Theorem C19_panic_refuted : exists E w xs i r, blank w /\ registry_ok w /\ oauth_service r /\
    In (EvStart i r) (history E w xs) /\ In (EvDone i Crashed) (history E w xs) /\
    (forall j c a, In (EvCall j c a) (history E w xs) -> nil_read a = false).
Proof. exact C19_panic_refuted_proof. Qed.
Print Assumptions C19_panic_refuted.
(* The theorem is itself a concrete case. *)

Theorem C19_no_panic_partial : forall E w xs i r o,
  oauth_service r -> In (EvStart i r) (history E w xs) -> In (EvDone i o) (history E w xs) ->
  (forall c a, In (EvCall i c a) (history E w xs) -> nil_read a = false) ->
  (forall urn, ~ In (EvCall i (CResGet urn) (ARes SErr)) (history E w xs)) ->
  exists p, o = Done p.
Proof. exact C19_no_panic_partial_proof. Qed.
Print Assumptions C19_no_panic_partial.
Example C19_no_panic_partial_met : exists E w xs i r o,
  oauth_service r /\
  In (EvStart i r) (history E w xs) /\
  In (EvDone i o) (history E w xs) /\
  (forall c a, In (EvCall i c a) (history E w xs) -> nil_read a = false) /\
  (forall urn, ~ In (EvCall i (CResGet urn) (ARes SErr)) (history E w xs)).
Proof.
  exists (demo_ext); exists (w0); exists (x_exchange); exists (2%nat); exists (RToken (Some (exchangereq webapp "at-1" None))); eexists.
  meet.
  every.
Qed.

Theorem C19_no_panic_in_memory_partial : forall E w xs i r o,
  no_faults xs -> oauth_service r -> In (EvStart i r) (history E w xs) -> In (EvDone i o) (history E w xs) ->
  exists p, o = Done p.
Proof. exact C19_no_panic_in_memory_partial_proof. Qed.
Print Assumptions C19_no_panic_in_memory_partial.
Example C19_no_panic_in_memory_partial_met : exists E w xs i r o,
  no_faults xs /\
  oauth_service r /\
  In (EvStart i r) (history E w xs) /\
  In (EvDone i o) (history E w xs).
Proof.
  exists (demo_ext); exists (w0); exists (x_exchange); exists (2%nat); exists (RToken (Some (exchangereq webapp "at-1" None))); eexists.
  meet.
Qed.

Theorem C19_public_error_partial : forall E w xs i r p,
  oauth_service r -> answered (history E w xs) i r p -> failed p = true ->
  (* not a revocation and not a token exchange *)
  (forall req, r <> RRevoke (Some req)) ->
  (forall req, r = RToken (Some req) ->
     tq_grant_type req <> "urn:ietf:params:oauth:grant-type:token-exchange"%string) ->
  (forall c a, In (EvCall i c a) (history E w xs) -> nil_read a = false) ->
  exists e, public_error p = Some e.
Proof. exact C19_public_error_partial_proof. Qed.
Print Assumptions C19_public_error_partial.
Example C19_public_error_partial_met : exists E w xs i r p,
  oauth_service r /\
  answered (history E w xs) i r p /\
  failed p = true /\
  (forall req, r <> RRevoke (Some req)) /\
  (forall req, r = RToken (Some req) -> tq_grant_type req <> "urn:ietf:params:oauth:grant-type:token-exchange"%string) /\
  (forall c a, In (EvCall i c a) (history E w xs) -> nil_read a = false).
Proof.
  exists (demo_ext); exists (w0); exists (x_rotate); exists (3%nat); exists (RToken (Some (refreshreq webapp "rt-1"))); eexists.
  meet.
  - discriminate.
  - intros req E1. injection E1 as <-. discriminate.
Qed.

Theorem C19_unreported_exactly_partial : forall E w xs i r p,
  oauth_service r -> answered (history E w xs) i r p -> failed p = true ->
  (forall c a, In (EvCall i c a) (history E w xs) -> nil_read a = false) ->
  (public_error p = None <-> exists c a, In (EvCall i c a) (history E w xs) /\ unreported r c a = true).
Proof. exact C19_unreported_exactly_partial_proof. Qed.
Print Assumptions C19_unreported_exactly_partial.
Example C19_unreported_exactly_partial_met : exists E w xs i r p,
  oauth_service r /\
  answered (history E w xs) i r p /\
  failed p = true /\
  (forall c a, In (EvCall i c a) (history E w xs) -> nil_read a = false).
Proof.
  exists (demo_ext); exists (w0); exists (x_norevoke); exists (0%nat); exists (RRevoke (Some (mkValReq iss (Some webapp) "nothing"))); eexists.
  meet.
Qed.

Theorem C19_panics_exactly_partial : forall E w xs i r o,
  oauth_service r -> In (EvStart i r) (history E w xs) -> In (EvDone i o) (history E w xs) ->
  (forall c a, In (EvCall i c a) (history E w xs) -> nil_read a = false) ->
  (o = Crashed <-> exists urn, In (EvCall i (CResGet urn) (ARes SErr)) (history E w xs)).
Proof. exact C19_panics_exactly_partial_proof. Qed.
Print Assumptions C19_panics_exactly_partial.
Example C19_panics_exactly_partial_met : exists E w xs i r o,
  oauth_service r /\
  In (EvStart i r) (history E w xs) /\
  In (EvDone i o) (history E w xs) /\
  (forall c a, In (EvCall i c a) (history E w xs) -> nil_read a = false).
Proof.
  exists (demo_ext); exists (w0); exists (x_crash); exists (2%nat); exists (RToken (Some (exchangereq webapp "at-1" None))); eexists.
  meet.
Qed.

(** ** C20 Token lifetimes are fixed *)

Theorem C20_lifetimes : forall E w xs k t,
  no_tokens w -> w_tval (final E w xs) k = Some t ->
  exists h1 h2 i req m,
    history E w xs = (h1 ++ h2)%list /\ during h1 i (RToken (Some req)) /\
    t_meta t = Some m /\ m_issued_at m = unix (clock w h1) /\
    ((t_type t = TtRefresh /\ m_expires_at m = (m_issued_at m + 604800)%N) \/
     (t_type t = TtAccess /\ m_expires_at m =
        (m_issued_at m + if String.eqb (tq_grant_type req) "urn:ietf:params:oauth:grant-type:token-exchange" then 60 else 3600)%N)) /\
    (* created by that very request, after the clock was read *)
    exists iss t0 a, In (EvCall i (CTokCreate iss t0) a) h2 /\ t_id t0 = t_id t /\ t_meta t0 = Some m.
Proof. exact C20_lifetimes_proof. Qed.
Print Assumptions C20_lifetimes.
Example C20_lifetimes_met : exists E w xs k t,
  no_tokens w /\
  w_tval (final E w xs) k = Some t.
Proof.
  exists (demo_ext); exists (w0); exists (x_code); exists (tok_key demo_ext iss "at-1"); eexists.
  meet.
Qed.

(** ** C21 Every token in the store is justified *)

Theorem C21_subjects_consented : forall E w xs k t m,
  blank w -> stamp_ok w -> w_tval (final E w xs) k = Some t -> t_meta t = Some m -> m_subject m <> ""%string ->
  exists h1 i iss t0 a h2, history E w xs = (h1 ++ EvCall i (CTokCreate iss t0) a :: h2)%list /\
    t_id t0 = t_id t /\ t_meta t0 = Some m /\ consented h1 (m_subject m).
Proof. exact C21_subjects_consented_proof. Qed.
Print Assumptions C21_subjects_consented.
Example C21_subjects_consented_met : exists E w xs k t m,
  blank w /\
  stamp_ok w /\
  w_tval (final E w xs) k = Some t /\
  t_meta t = Some m /\
  m_subject m <> ""%string.
Proof.
  exists (demo_ext); exists (w0); exists (x_code); exists (tok_key demo_ext iss "rt-1"); eexists; eexists.
  meet.
Qed.

(** ** C23 The token store behaves as a map *)

Theorem C23_pointers_resolved : forall E w os issuer value id, no_tokens w ->
  ts_get_by_value E (ts_run E ts_new os) issuer value = w_tval (w_run E w os) (tok_key E issuer value) /\
  ts_get (ts_run E ts_new os) id = w_tid (w_run E w os) id.
Proof. exact C23_pointers_resolved_proof. Qed.
Print Assumptions C23_pointers_resolved.
Example C23_pointers_resolved_met : exists E w os issuer value id, no_tokens w /\
  ts_get_by_value E (ts_run E ts_new os) issuer value <> None /\ ts_get (ts_run E ts_new os) id = None.
Proof. exists demo_ext, w0, demo_tops, iss, "at-1"%string, "id-2"%string. meet. Qed.

Theorem C23_token_store_is_a_map : forall E os, top_no_reuse E os ->
  (forall issuer value t', ts_get_by_value E (ts_run E ts_new os) issuer value = Some t' <->
     exists os1 issuer0 t os2, os = (os1 ++ TCreate issuer0 t :: os2)%list /\
       tok_key E issuer0 (t_value t) = tok_key E issuer value /\ kept os2 t /\ t' = stored_copy E issuer0 t os2) /\
  (forall id t', ts_get (ts_run E ts_new os) id = Some t' <->
     exists os1 issuer0 t os2, os = (os1 ++ TCreate issuer0 t :: os2)%list /\
       t_id t = id /\ kept os2 t /\ t' = stored_copy E issuer0 t os2).
Proof. exact C23_token_store_is_a_map_proof. Qed.
Print Assumptions C23_token_store_is_a_map.
Example C23_token_store_is_a_map_met : top_no_reuse demo_ext demo_tops /\
  (exists t, ts_get_by_value demo_ext (ts_run demo_ext ts_new demo_tops) iss "at-1" = Some t /\ t_status t = TsRevoked) /\
  ts_get (ts_run demo_ext ts_new demo_tops) "id-2" = None.
Proof.
  split; [apply tops_apart; vm_compute; reflexivity|]. split; [eexists; split|]; vm_compute; reflexivity.
Qed.

(** ** C24 Success means stored *)

Theorem C24_success_means_stored : forall E w xs ys i req res t j q ires c,
  no_tokens w -> no_faults ys -> no_reuse E (history E w (xs ++ ys)%list) ->
  token_ok (history E w xs) i req res -> In t (tokens_of res) ->
  (tq_grant_type req = "refresh_token"%string -> forall m, t_meta t = Some m -> m_issuer m = tq_issuer req) ->
  (forall r, ~ asked (history E w xs) j r) ->
  answered (history E w (xs ++ ys)%list) j (RIntrospect (Some q)) (PIntrospect ires) ->
  vq_issuer q = tq_issuer req -> vq_token q = t_value t ->
  vq_client q = Some c -> w_clients w (cl_id c) <> None ->
  ir_err ires = false /\
  exists t', ir_token ires = Some t' /\ t_id t' = t_id t /\ t_type t' = t_type t /\ t_meta t' = t_meta t /\ t_cnf t' = t_cnf t /\
    (t_status t' = TsActive \/
     t_status t' = TsRevoked /\ exists k iss a, In (EvCall k (CTokRevoke iss (t_id t)) a) (history E w (xs ++ ys)%list)).
Proof. exact C24_success_means_stored_proof. Qed.
Print Assumptions C24_success_means_stored.
Example C24_success_means_stored_met : exists E w xs ys i req res t j q ires c,
  no_tokens w /\
  no_faults ys /\
  no_reuse E (history E w (xs ++ ys)%list) /\
  token_ok (history E w xs) i req res /\
  In t (tokens_of res) /\
  (tq_grant_type req = "refresh_token"%string -> forall m, t_meta t = Some m -> m_issuer m = tq_issuer req) /\
  (forall r, ~ asked (history E w xs) j r) /\
  answered (history E w (xs ++ ys)%list) j (RIntrospect (Some q)) (PIntrospect ires) /\
  vq_issuer q = tq_issuer req /\
  vq_token q = t_value t /\
  vq_client q = Some c /\
  w_clients w (cl_id c) <> None.
Proof.
  exists (demo_ext); exists (w0); exists (x_code); exists (y_intro); exists (1%nat); exists (redeem webapp "code-1"); eexists; eexists; exists (2%nat); exists (mkValReq iss (Some webapp) "at-1"); eexists; exists (webapp).
  meet.
  discriminate.
Qed.
