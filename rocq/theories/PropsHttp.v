(** * The HTTP endpoints, the client and the resource server: the theorems

    Written by tools/gen_props.py: the statements are those of the lemmas proved in
    PfHttp, PfHttp2, PfHttp3, PfHttp4, PfHttp5, PfHttp6.
    Below each theorem, a concrete case that meets its hypotheses. *)

From Verif Require Import MeetHttp.

(** ** C55 Client JWKS cache *)

Theorem C55_key_cache : forall cs i c r f,
  nth_error cs i = Some c -> nth_error (run_keys fresh_client cs) i = Some (r, f) ->
  let before := firstn i (run_keys fresh_client cs) in
  (f = false <-> exists keys exp, last_fetched before = Some (keys, exp) /\ (pk_now1 c < exp)%N) /\
  (f = false -> exists keys exp, last_fetched before = Some (keys, exp) /\ r = KeysOk keys exp) /\
  (f = true -> forall keys exp, r = KeysOk keys exp ->
     pk_answer c = JwksDoc (Some keys) exp /\ keys <> [] /\ (exp = 0 \/ pk_now2 c <= exp)%N).
Proof. exact C55_key_cache_proof. Qed.
Print Assumptions C55_key_cache.
Example C55_key_cache_met : exists cs,
  run_keys fresh_client cs = [(KeysOk [app_key] 2000, true); (KeysOk [app_key] 2000, false); (KeysOk [att_key] 3000, true)].
Proof.
  exists [mkKeysCall 1000 (JwksDoc (Some [app_key]) 2000) 1000; mkKeysCall 1999 (JwksDoc (Some [att_key]) 3000) 1999;
          mkKeysCall 2000 (JwksDoc (Some [att_key]) 3000) 2000]%N. reflexivity.
Qed.

(** ** C56 The resource server enforces scope, age and assurance *)

Theorem C56_admission_partial : forall E lower perms assertion introspect intent acr max_age r tr,
  runs (authorizer E lower perms assertion introspect intent acr max_age r) tr (Done RsNext) ->
  exists a token t m, assertion = Some a /\ introspect a token = Done (Some t) /\ rt_active t = true /\ rt_meta t = Some m /\
    ((authorization E r "bearer" token /\ rt_cnf t = None) \/
     (authorization E r "dpop" token /\ exists thumb, rt_cnf t = Some thumb /\ proof_accepted E r (Some token) tr thumb)) /\
    permitted E perms intent (rm_client_id m) (rm_subject m) /\
    (forall t0, rm_auth_time m = Some t0 -> (0 < max_age)%N -> (max_age + t0 < 2 ^ 64)%N ->
       exists t1, In (CNow, ATime t1) tr /\ (t0 <= unix t1 <= t0 + max_age)%N) /\
    (forall a0, rm_acr m = Some a0 -> acr <> [] -> listed E acr a0).
Proof. exact C56_admission_partial_proof. Qed.
Print Assumptions C56_admission_partial.
Example C56_admission_partial_met : exists E lower perms assertion introspect intent acr max_age r tr,
  runs (authorizer E lower perms assertion introspect intent acr max_age r) tr (Done RsNext) /\ acr <> [] /\ (0 < max_age)%N.
Proof.
  exists web_ext, to_lower, demo_perms, (Some "assertion"%string), (rs_introspect (Some (b64url "thumb:instance-key"))),
    "read"%string, ["gold"%string], 60%N, (api_r "DPoP at-1"), api_calls.
  split; [by_run|]. split; [discriminate|reflexivity].
Qed.
Example C56_admission_partial_met_bearer : exists E lower perms assertion introspect intent acr max_age r tr,
  runs (authorizer E lower perms assertion introspect intent acr max_age r) tr (Done RsNext) /\ acr <> [] /\ (0 < max_age)%N.
Proof.
  exists web_ext, to_lower, demo_perms, (Some "assertion"%string), (rs_introspect None),
    "read"%string, ["gold"%string], 60%N, (api_r "Bearer at-1"), [(CNow, ATime (1000 * second))].
  split; [by_run|]. split; [discriminate|reflexivity].
Qed.

Theorem C56_no_context_refuted : forall E lower perms introspect intent acr max_age r a s token t m,
  introspect a token = Done (Some t) -> rt_active t = true -> rt_meta t = Some m -> rt_cnf t = None ->
  rm_auth_time m = None -> rm_acr m = None ->
  hq_header r "Authorization" = (s ++ " " ++ token)%string -> split_space s = (s, None) ->
  equal_fold (x_fold E) s "bearer" = true -> String.prefix "bearer" (lower (s ++ " " ++ token)%string) = true ->
  permitted E perms intent (rm_client_id m) (rm_subject m) ->
  runs (authorizer E lower perms (Some a) introspect intent acr max_age r) [] (Done RsNext).
Proof. exact C56_no_context_refuted_proof. Qed.
Print Assumptions C56_no_context_refuted.
Example C56_no_context_refuted_met : exists E lower perms (introspect : string -> string -> outcome (option rs_token)) intent (acr : list string) max_age r a s token t m,
  introspect a token = Done (Some t) /\ rt_active t = true /\ rt_meta t = Some m /\ rt_cnf t = None /\
  rm_auth_time m = None /\ rm_acr m = None /\
  hq_header r "Authorization" = (s ++ " " ++ token)%string /\ split_space s = (s, None) /\
  equal_fold (x_fold E) s "bearer" = true /\ String.prefix "bearer" (lower (s ++ " " ++ token)%string) = true /\
  permitted E perms intent (rm_client_id m) (rm_subject m) /\ acr <> [] /\ (0 < max_age)%N.
Proof.
  pose (m := mkRsMeta iss "alice" "app" "openid" "" None None). pose (t := mkRsToken true (Some m) None "at-1"%string).
  exists web_ext, to_lower, demo_perms, (fun _ _ => Done (Some t)), "read"%string, ["gold"%string], 60%N, (api_r "Bearer at-1"),
    "assertion"%string, "Bearer"%string, "at-1"%string, t, m.
  do 10 (split; [vm_compute; reflexivity|]). split.
  { do 2 eexists. split; [reflexivity|]. split; [reflexivity|]. exists "alice"%string. split; [left; reflexivity|]. reflexivity. }
  split; [discriminate|reflexivity].
Qed.

(** ** C57 The token endpoint honours DPoP-bound clients *)

Theorem C57_bound_tokens_partial : forall E issuer r c tr q i t a,
  reach (token_handler E issuer r (Some c)) tr q -> In (CTokCreate i t, a) tr ->
  cl_dpop_bound c = true \/ hq_header r "DPoP" <> ""%string ->
  exists thumb, proof_accepted E r None tr thumb /\
    (form_value r "grant_type" <> "refresh_token"%string -> t_cnf t = Some thumb) /\
    (form_value r "grant_type" = "refresh_token"%string ->
     exists old, In (CTokGet issuer (form_value r "refresh_token"), ATok (SOk old)) tr /\
       t_type old = TtRefresh /\ t_cnf t = t_cnf old /\
       exists mo m, t_meta old = Some mo /\ t_meta t = Some m /\ m_client_id m = m_client_id mo).
Proof. exact C57_bound_tokens_partial_proof. Qed.
Print Assumptions C57_bound_tokens_partial.
Example C57_bound_tokens_partial_met : exists E issuer r c tr q i t a,
  reach (token_handler E issuer r (Some c)) tr q /\ In (CTokCreate i t, a) tr /\ cl_dpop_bound c = true.
Proof.
  exists web_ext, iss, (redeem_r dpop1), (happ true), code_calls. do 4 eexists. split; [by_reach|].
  split; [apply (nth_error_In _ 10%nat); vm_compute; reflexivity|reflexivity].
Qed.
Example C57_bound_tokens_partial_met_refresh : exists E issuer r c tr q i t a,
  reach (token_handler E issuer r (Some c)) tr q /\ In (CTokCreate i t, a) tr /\ cl_dpop_bound c = true /\
  form_value r "grant_type" = "refresh_token"%string.
Proof.
  exists web_ext, iss, (refresh_r dpop2), (happ true), refresh_calls. do 4 eexists. split; [by_reach|].
  split; [apply (nth_error_In _ 10%nat); vm_compute; reflexivity|split; reflexivity].
Qed.

Theorem C57_bound_tokens : forall S w xs i iss t a m c,
  registry_ok w -> no_tokens w ->
  In (HvCall i (CTokCreate iss t) a) (http_history S w xs) ->
  t_meta t = Some m -> w_clients w (m_client_id m) = Some c -> cl_dpop_bound c = true ->
  exists j e r thumb, In (HvStart j e r) (http_history S w xs) /\
    proof_accepted (sv_ext S) r None (hcalls j (http_history S w xs)) thumb /\ t_cnf t = Some thumb.
Proof. exact C57_bound_tokens_proof. Qed.
Print Assumptions C57_bound_tokens.
Example C57_bound_tokens_met : exists S w xs i iss t a m c,
  registry_ok w /\ no_tokens w /\ In (HvCall i (CTokCreate iss t) a) (http_history S w xs) /\
  t_meta t = Some m /\ w_clients w (m_client_id m) = Some c /\ cl_dpop_bound c = true.
Proof.
  exists web_server, (web_world true), x_http_refresh, 2%nat. do 5 eexists.
  split; [apply registry_web|]. split; [apply blank_web|]. split; [by_nth 40%nat|]. repeat (split; [reflexivity|]). reflexivity.
Qed.

Theorem C57_refresh_proof_refuted : exists S w xs i r iss t a m c thumb,
  let h := http_history S w xs in
  registry_ok w /\ blank w /\ In (HvStart i EToken r) h /\ In (HvCall i (CTokCreate iss t) a) h /\
  t_meta t = Some m /\ w_clients w (m_client_id m) = Some c /\ cl_dpop_bound c = true /\
  proof_accepted (sv_ext S) r None (hcalls i h) thumb /\ t_cnf t <> Some thumb.
Proof. exact C57_refresh_proof_refuted_proof. Qed.
Print Assumptions C57_refresh_proof_refuted.
(* The theorem is itself a concrete case. *)

(** ** C58 Client authentication middleware *)

Theorem C58_authenticated_clients : forall E next r tr resp,
  runs (client_authentication E next r) tr (Done resp) ->
  (exists e, resp = HError 401 e /\ Forall (fun x => fst x = CNow \/ exists id, fst x = CClientGet id) tr) \/
  exists client tr1 tr2, tr = (tr1 ++ tr2)%list /\ runs (next client) tr2 (Done resp) /\
    ((exists c, client = Some c /\ query_get r "client_id" <> ""%string /\ cl_type c = CtPublic /\
        tr1 = [(CClientGet (query_get r "client_id"), AClient (SOk c))]) \/
     (query_get r "client_id" = ""%string /\
      (client = None -> exists id, In (CClientGet id, AClient SNil) tr1) /\
      exists res, aa_err res = false /\ aa_client res = client /\
        let msg kind := Some (mkAuthn (Some kind) (Some (post_value r "client_assertion"))) in
        ((post_value r "client_assertion_type" = assertion_bearer /\
          runs (private_key_jwt E (msg assertion_bearer)) tr1 (Done res)) \/
         (post_value r "client_assertion_type" = assertion_attestation /\
          runs (client_attestation E (msg assertion_attestation)) tr1 (Done res))))).
Proof. exact C58_authenticated_clients_proof. Qed.
Print Assumptions C58_authenticated_clients.
Example C58_authenticated_clients_met : exists E next r tr resp, runs (client_authentication E next r) tr (Done resp) /\
  resp = HToken "at-1" 3600 "DPoP" "rt-1" all_scope.
Proof.
  exists web_ext, (token_handler web_ext iss (redeem_r dpop1)), (redeem_r dpop1),
    (hcalls 1 (http_history web_server (web_world true) x_http_code)). eexists. split; [by_run|reflexivity].
Qed.
Example C58_authenticated_clients_met_public : exists E next r tr resp, runs (client_authentication E next r) tr (Done resp) /\
  query_get r "client_id" = "spa"%string /\ forall status e, resp <> HError status e.
Proof.
  exists web_ext, (device_authorization_handler web_ext iss device_r), device_r,
    (hcalls 0 (http_history web_server (web_world true) x_http_device)). eexists. split; [by_run|].
  split; [reflexivity|discriminate].
Qed.

(** ** C61 The client reads what the introspection endpoint writes *)

Theorem C61_document_partial : forall t m now, t_meta t = Some m ->
  let d := introspection_doc t m now in
  (Client.get "active" d = Some (JBool true) <-> usable_at t now) /\
  (usable_at t now ->
     Client.get "client_id" d = Some (JStr (m_client_id m)) /\ Client.get "scope" d = Some (JStr (m_scope m)) /\
     Client.get "sub" d = Some (JStr (m_subject m)) /\
     Client.get "cnf" d = match t_cnf t with Some jkt => Some (JObj [("jkt"%string, JStr jkt)]) | None => None end) /\
  (~ usable_at t now -> d = [("active"%string, JBool false)]).
Proof. exact C61_document_partial_proof. Qed.
Print Assumptions C61_document_partial.
Example C61_document_partial_met : t_meta a_token = Some a_meta /\ usable_at a_token 2000 /\ t_cnf a_token <> None.
Proof.
  split; [reflexivity|]. split; [|discriminate].
  split; [reflexivity|]. exists a_meta. split; [reflexivity|]. vm_compute. split; discriminate.
Qed.

Theorem C61_client_crashes_refuted : forall value d, introspection_result value (HDoc d) = Crashed.
Proof. exact C61_client_crashes_refuted_proof. Qed.
Print Assumptions C61_client_crashes_refuted.
Example C61_client_crashes_refuted_met : exists t m now value, usable_at t now /\ t_meta t = Some m /\
  introspection_result value (HDoc (introspection_doc t m now)) = Crashed.
Proof.
  exists a_token, a_meta, 2000%N, "at-1"%string. split; [|split; [reflexivity|apply C61_client_crashes_refuted]].
  split; [reflexivity|]. exists a_meta. split; [reflexivity|]. vm_compute. split; discriminate.
Qed.

Theorem C61_nobody_admitted_refuted : forall E lower perms assertion answer intent acr max_age r tr,
  ~ runs (authorizer E lower perms assertion (fun a v => introspection_result v (answer a v)) intent acr max_age r)
      tr (Done RsNext).
Proof. exact C61_nobody_admitted_refuted_proof. Qed.
Print Assumptions C61_nobody_admitted_refuted.
Example C61_nobody_admitted_refuted_met : exists E lower perms assertion (answer : string -> string -> http_response) intent acr max_age r,
  (forall a v, exists d, answer a v = HDoc d) /\
  forall o, runs (authorizer E lower perms (Some assertion) (fun a v => introspection_result v (answer a v)) intent acr max_age r) [] o ->
    o = Crashed.
Proof.
  exists web_ext, to_lower, demo_perms, "assertion"%string, (fun _ _ => HDoc (introspection_doc a_token a_meta 2000)),
    "read"%string, [], 0%N, (api_r "Bearer at-1").
  split; [intros; eauto|]. intros o H. destruct o as [x|]; [|reflexivity]. exfalso.
  cbn [runs] in H. vm_compute in H. inversion H.
Qed.

Theorem C61_bearer_crashes_refuted : forall E lower perms answer intent acr max_age r a s token d,
  hq_header r "Authorization" = (s ++ " " ++ token)%string -> split_space s = (s, None) ->
  equal_fold (x_fold E) s "bearer" = true -> String.prefix "bearer" (lower (s ++ " " ++ token)%string) = true ->
  answer a token = HDoc d ->
  runs (authorizer E lower perms (Some a) (fun a v => introspection_result v (answer a v)) intent acr max_age r)
    [] Crashed.
Proof. exact C61_bearer_crashes_refuted_proof. Qed.
Print Assumptions C61_bearer_crashes_refuted.
Example C61_bearer_crashes_refuted_met : exists E lower answer r (a : string) s token d,
  hq_header r "Authorization" = (s ++ " " ++ token)%string /\ split_space s = (s, None) /\
  equal_fold (x_fold E) s "bearer" = true /\ String.prefix "bearer" (lower (s ++ " " ++ token)%string) = true /\
  answer a token = HDoc d /\ d = introspection_doc a_token a_meta 2000 /\ usable_at a_token 2000.
Proof.
  exists web_ext, to_lower, (fun _ _ : string => HDoc (introspection_doc a_token a_meta 2000)), (api_r "Bearer at-1"),
    "assertion"%string, "Bearer"%string, "at-1"%string, (introspection_doc a_token a_meta 2000).
  do 6 (split; [vm_compute; reflexivity|]).
  split; [reflexivity|]. exists a_meta. split; [reflexivity|]. vm_compute. split; discriminate.
Qed.

(** ** C62 Token responses describe the issued token *)

Theorem C62_token_response_partial : forall E issuer r c tr access expires type refresh scope,
  runs (token_handler E issuer r (Some c)) tr (Done (HToken access expires type refresh scope)) ->
  exists t m now registered,
    stored tr t /\ t_type t = TtAccess /\ t_value t = access /\ access <> ""%string /\
    t_meta t = Some m /\ m_scope m = scope /\
    In (CClientGet (cl_id c), AClient (SOk registered)) tr /\ m_client_id m = cl_id registered /\
    In (CNow, ATime now) tr /\ ((unix now <= m_expires_at m)%N -> unix now + expires = m_expires_at m)%N /\
    (refresh <> ""%string -> exists t2, stored tr t2 /\ t_type t2 = TtRefresh /\ t_value t2 = refresh) /\
    (type = "DPoP"%string \/ type = "Bearer"%string) /\
    (form_value r "grant_type" <> "refresh_token"%string -> type = "DPoP"%string <-> t_cnf t <> None).
Proof. exact C62_token_response_partial_proof. Qed.
Print Assumptions C62_token_response_partial.
Example C62_token_response_partial_met : exists E issuer r c tr access expires type refresh scope,
  runs (token_handler E issuer r (Some c)) tr (Done (HToken access expires type refresh scope)) /\
  refresh <> ""%string /\ type = "DPoP"%string /\ form_value r "grant_type" <> "refresh_token"%string.
Proof.
  exists web_ext, iss, (redeem_r dpop1), (happ true), code_calls. do 5 eexists. split; [by_run|].
  split; [discriminate|]. split; [reflexivity|discriminate].
Qed.

Theorem C62_token_type_refuted : exists S w xs i access expires refresh scope iss t a,
  let h := http_history S w xs in
  registry_ok w /\ blank w /\ In (HvCall i (CTokCreate iss t) a) h /\ a = AUnit (SOk tt) /\ t_value t = access /\
  t_cnf t <> None /\ In (HvDone i (Done (HToken access expires "Bearer" refresh scope))) h.
Proof. exact C62_token_type_refuted_proof. Qed.
Print Assumptions C62_token_type_refuted.
(* The theorem is itself a concrete case. *)

(** ** C63 Pushed authorization requests *)

Theorem C63_pushed_requests : forall E issuer dec r client tr q i uri stored_request a,
  reach (par_handler E issuer dec r client) tr q -> In (CReqReg i uri stored_request, a) tr ->
  exists c thumb pushed, client = Some c /\ proof_accepted E r None tr thumb /\
    signed_by E c (query_get r "request") /\ dec (query_get r "request") = Some pushed /\
    i = issuer /\ ar_client_id pushed = cl_id c /\
    ar_client_id stored_request = cl_id c /\ ar_redirect_uri stored_request = ar_redirect_uri pushed /\
    ar_state stored_request = ar_state pushed /\ ar_nonce stored_request = ar_nonce pushed /\
    ar_code_challenge stored_request = ar_code_challenge pushed /\ ar_request_uri stored_request = None.
Proof. exact C63_pushed_requests_proof. Qed.
Print Assumptions C63_pushed_requests.
Example C63_pushed_requests_met : exists E issuer dec r client tr q i uri stored_request a,
  reach (par_handler E issuer dec r client) tr q /\ In (CReqReg i uri stored_request, a) tr.
Proof.
  exists web_ext, iss, web_dec, par_r, (Some (happ true)), par_calls. do 5 eexists. split; [by_reach|].
  apply (nth_error_In _ 6%nat); vm_compute; reflexivity.
Qed.

(** ** C64 Only signed authorization requests give codes *)

Theorem C64_signed_requests_partial : forall E issuer dec ser salt r user tr q i code s a,
  reach (authorization_handler E issuer dec ser salt r user) tr q -> In (CSessReg i code s, a) tr ->
  exists c asked sub granted,
    In (CClientGet (query_get r "client_id"), AClient (SOk c)) tr /\
    signed_by E c (query_get r "request") /\ dec (query_get r "request") = Some asked /\
    i = issuer /\ s = mkSess issuer sub (Some granted) /\ subject_for E salt c user sub /\
    (ar_request_uri asked = None -> ar_client_id granted = ar_client_id asked /\
       ar_redirect_uri granted = ar_redirect_uri asked /\ ar_code_challenge granted = ar_code_challenge asked) /\
    (forall uri, ar_request_uri asked = Some uri -> exists pushed,
       In (CReqGet issuer uri, AReq (SOk pushed)) tr /\ ar_client_id granted = ar_client_id pushed /\
       ar_redirect_uri granted = ar_redirect_uri pushed /\ ar_code_challenge granted = ar_code_challenge pushed).
Proof. exact C64_signed_requests_partial_proof. Qed.
Print Assumptions C64_signed_requests_partial.
Example C64_signed_requests_partial_met : exists E issuer dec ser salt r user tr q i code s a,
  reach (authorization_handler E issuer dec ser salt r user) tr q /\ In (CSessReg i code s, a) tr /\
  exists asked, dec (query_get r "request") = Some asked /\ ar_request_uri asked = None.
Proof.
  exists web_ext, iss, web_dec, (fun _ => Some "jarm"%string), web_salt, (authorize_r "app" "req-app"), "hello"%string, authorize_calls.
  do 5 eexists. split; [by_reach|]. split; [apply (nth_error_In _ 3%nat); vm_compute; reflexivity|].
  eexists. split; reflexivity.
Qed.
Example C64_signed_requests_partial_met_uri : exists E issuer dec ser salt r user tr q i code s a,
  reach (authorization_handler E issuer dec ser salt r user) tr q /\ In (CSessReg i code s, a) tr /\
  exists asked uri, dec (query_get r "request") = Some asked /\ ar_request_uri asked = Some uri.
Proof.
  exists web_ext, iss, web_dec, (fun _ => Some "jarm"%string), web_salt, (authorize_r "app" "req-by-uri"), "hello"%string, uri_calls.
  do 5 eexists. split; [by_reach|]. split; [apply (nth_error_In _ 5%nat); vm_compute; reflexivity|].
  do 2 eexists. split; reflexivity.
Qed.

Theorem C64_signed_requests_refuted : exists S w xs i r iss code s a granted c,
  let h := http_history S w xs in
  registry_ok w /\ blank w /\ In (HvStart i EAuthorize r) h /\ In (HvCall i (CSessReg iss code s) a) h /\
  as_request s = Some granted /\ w_clients w (ar_client_id granted) = Some c /\
  ~ signed_by (sv_ext S) c (query_get r "request").
Proof. exact C64_signed_requests_refuted_proof. Qed.
Print Assumptions C64_signed_requests_refuted.
(* The theorem is itself a concrete case. *)

(** ** C65 No HTTP request crashes its handler *)

Theorem C65_revoke_unknown_refuted : exists S w xs i r, let h := http_history S w xs in
  registry_ok w /\ blank w /\ In (HvStart i ERevoke r) h /\ In (HvDone i Crashed) h.
Proof. exact C65_revoke_unknown_refuted_proof. Qed.
Print Assumptions C65_revoke_unknown_refuted.
(* The theorem is itself a concrete case. *)

Theorem C65_no_openid_refuted : exists S w xs i r j r', let h := http_history S w xs in
  registry_ok w /\ blank w /\ In (HvStart i EAuthorize r) h /\ In (HvStart j EToken r') h /\
  (exists uri jarm, In (HvDone i (Done (HRedirectQuery uri jarm))) h) /\ In (HvDone j Crashed) h.
Proof. exact C65_no_openid_refuted_proof. Qed.
Print Assumptions C65_no_openid_refuted.
(* The theorem is itself a concrete case. *)

(** ** C66 The requested response mode is honoured *)

Theorem C66_response_mode_refuted : forall E issuer dec ser salt r user tr resp,
  runs (authorization_handler E issuer dec ser salt r user) tr (Done resp) ->
  (exists status e, resp = HError status e) \/ exists uri jarm, resp = HRedirectQuery uri jarm.
Proof. exact C66_response_mode_refuted_proof. Qed.
Print Assumptions C66_response_mode_refuted.
(** The signed request asks for the mode fragment.jwt. *)
Example C66_response_mode_refuted_met : exists E issuer dec ser salt r user tr resp asked,
  runs (authorization_handler E issuer dec ser salt r user) tr (Done resp) /\
  dec (query_get r "request") = Some asked /\ ar_response_mode asked = Some "fragment.jwt"%string /\
  exists uri jarm, resp = HRedirectQuery uri jarm.
Proof.
  exists web_ext, iss, web_dec, (fun _ => Some "jarm"%string), web_salt, (authorize_r "app" "req-app-fragment"), "hello"%string,
    fragment_calls.
  do 2 eexists. split; [by_run|]. split; [reflexivity|]. split; [reflexivity|]. do 2 eexists. reflexivity.
Qed.

(** ** C67 Device authorization is for the authenticated client *)

Theorem C67_device_client_partial : forall E issuer r client tr q i user_code s a,
  reach (device_authorization_handler E issuer r client) tr q -> In (CDevReg i user_code s, a) tr ->
  exists c, In (CClientGet (form_value r "client_id"), AClient (SOk c)) tr /\ ds_client s = Some c /\
    listed E (cl_grant_types c) "urn:ietf:params:oauth:grant-type:device_code" /\ i = issuer /\ ds_issuer s = issuer /\
    ds_subject s = None.
Proof. exact C67_device_client_partial_proof. Qed.
Print Assumptions C67_device_client_partial.
Example C67_device_client_partial_met : exists E issuer r client tr q i user_code s a,
  reach (device_authorization_handler E issuer r client) tr q /\ In (CDevReg i user_code s, a) tr.
Proof.
  exists web_ext, iss, device_r, (Some hspa), device_calls. do 5 eexists. split; [by_reach|].
  apply (nth_error_In _ 3%nat); vm_compute; reflexivity.
Qed.

Theorem C67_device_client_refuted : exists S w xs i r iss user_code s a c,
  let h := http_history S w xs in
  registry_ok w /\ blank w /\ In (HvStart i EDeviceAuthorize r) h /\ In (HvCall i (CDevReg iss user_code s) a) h /\
  ds_client s = Some c /\ cl_type c = CtConfidential /\ w_clients w (cl_id c) = Some c /\
  post_value r "client_assertion" = ""%string.
Proof. exact C67_device_client_refuted_proof. Qed.
Print Assumptions C67_device_client_refuted.
(* The theorem is itself a concrete case. *)

(** ** C68 Pairwise clients never see the user's own identifier *)

Theorem C68_pairwise_partial : forall S w xs i e r iss code s a granted c,
  let h := http_history S w xs in
  In (HvStart i e r) h -> In (HvCall i (CSessReg iss code s) a) h -> as_request s = Some granted ->
  ar_client_id granted = query_get r "client_id" -> w_clients w (ar_client_id granted) = Some c ->
  exists user password, hq_basic r = Some (user, password) /\
    subject_for (sv_ext S) (sv_salt S) c user (as_subject s).
Proof. exact C68_pairwise_partial_proof. Qed.
Print Assumptions C68_pairwise_partial.
Example C68_pairwise_partial_met : exists S w xs i e r iss code s a granted c, let h := http_history S w xs in
  In (HvStart i e r) h /\ In (HvCall i (CSessReg iss code s) a) h /\ as_request s = Some granted /\
  ar_client_id granted = query_get r "client_id" /\ w_clients w (ar_client_id granted) = Some c /\
  cl_subject_type c = "pairwise"%string.
Proof.
  exists web_server, (web_world true), x_http_code, 0%nat, EAuthorize, (authorize_r "app" "req-app"). do 6 eexists.
  intros h. split; [by_start 0%nat|]. split; [by_nth 4%nat|]. repeat (split; [reflexivity|]). reflexivity.
Qed.

Theorem C68_pairwise_refuted : exists S w xs i r user password iss code s a granted c,
  let h := http_history S w xs in
  registry_ok w /\ blank w /\ In (HvStart i EAuthorize r) h /\ hq_basic r = Some (user, password) /\
  In (HvCall i (CSessReg iss code s) a) h /\ as_request s = Some granted /\
  w_clients w (ar_client_id granted) = Some c /\ cl_subject_type c = "pairwise"%string /\
  as_subject s = user /\ ~ subject_for (sv_ext S) (sv_salt S) c user (as_subject s).
Proof. exact C68_pairwise_refuted_proof. Qed.
Print Assumptions C68_pairwise_refuted.
(* The theorem is itself a concrete case. *)
