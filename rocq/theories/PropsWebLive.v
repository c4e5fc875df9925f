(** * What is bound to succeed over HTTP: the theorems

    Written by tools/gen_props.py: the statements are those of the lemmas proved in
    PfWebLive2, PfWebLive3, PfWebLive4, PfWebLive5, PfWebLive6, PfWebLive7.
    Below each theorem, a concrete case that meets its hypotheses. *)

From Verif Require Import MeetWebLive.

(** ** C98 The SDK client gets a token, and anyone can have it introspected *)

Theorem C98_credentials_accepted : forall S w xs i r c cnf o,
  let hh := http_history S w xs in
  hno_faults xs -> In (HvStart i EToken r) hh -> In (HvDone i o) hh ->
  form_value r "grant_type" = "client_credentials"%string -> comes_from S w hh i r c -> holds S w hh i r c cnf ->
  w_clients w (cl_id c) = Some c -> (cl_type c = CtConfidential \/ cl_type c = CtCredentialed) ->
  listed (sv_ext S) (cl_grant_types c) "client_credentials" ->
  sv_issuer S <> ""%string -> x_request_uri (sv_ext S) (sv_issuer S) = true -> web_generators_work hh i ->
  exists access expires scope, access <> ""%string /\ o = Done (HToken access expires (type_sent cnf) "" scope).
Proof. exact C98_credentials_accepted_proof. Qed.
Print Assumptions C98_credentials_accepted.
Example C98_credentials_accepted_met : exists S w xs i r c cnf o,
  hno_faults xs /\ In (HvStart i EToken r) (http_history S w xs) /\ In (HvDone i o) (http_history S w xs) /\
  form_value r "grant_type" = "client_credentials"%string /\ comes_from S w (http_history S w xs) i r c /\ holds S w (http_history S w xs) i r c cnf /\
  w_clients w (cl_id c) = Some c /\ cl_type c = CtConfidential /\ listed (sv_ext S) (cl_grant_types c) "client_credentials" /\
  sv_issuer S <> ""%string /\ x_request_uri (sv_ext S) (sv_issuer S) = true /\ web_generators_work (http_history S w xs) i.
Proof.
  exists web_server, (web_world false), x_sdk_token, 0%nat, sdk_token_r, (happ false), None. eexists.
  split; [by_faults|]. split; [by_start 0%nat|]. split; [by_nth 9%nat|]. split; [reflexivity|]. split.
  { right; left. split; [reflexivity|]. split; [reflexivity|].
    apply (C98_sdk_assertion_accepted_proof _ _ _ _ _ _ _ (sdk_uses false) (sdk_signed false)). vm_compute. discriminate. }
  split; [left; repeat split|]. split; [reflexivity|]. split; [reflexivity|]. split; [apply has_iff; reflexivity|].
  split; [discriminate|]. split; [reflexivity|].
  intros t a [H|H]; scan H; eexists; (split; [reflexivity|discriminate]).
Qed.

Theorem C98_sdk_assertion_accepted : forall S w c sign raw made until,
  uses_sdk S w c sign -> sdk_assertion c sign raw made -> (until <= unix (made + 30 * second))%N ->
  assertion_by (sv_ext S) w raw c until.
Proof. exact C98_sdk_assertion_accepted_proof. Qed.
Print Assumptions C98_sdk_assertion_accepted.
Example C98_sdk_assertion_accepted_met : exists S w c sign raw made until,
  uses_sdk S w c sign /\ sdk_assertion c sign raw made /\ until = unix (made + 30 * second).
Proof. exists web_server, (web_world true), (happ true), sdk_sign. do 3 eexists. split; [apply sdk_uses|]. split; [apply sdk_signed|reflexivity]. Qed.

Theorem C98_sdk_gets_token : forall S w xs i c sign raw made tls host path o,
  let hh := http_history S w xs in
  hno_faults xs -> uses_sdk S w c sign -> sdk_assertion c sign raw made ->
  In (HvStart i EToken (credentials_request tls host path raw)) hh -> In (HvDone i o) hh ->
  (unix (w_now w + time_in hh) <= unix (made + 30 * second))%N ->
  (cl_type c = CtConfidential \/ cl_type c = CtCredentialed) -> cl_dpop_bound c = false ->
  listed (sv_ext S) (cl_grant_types c) "client_credentials" ->
  sv_issuer S <> ""%string -> x_request_uri (sv_ext S) (sv_issuer S) = true -> web_generators_work hh i ->
  exists resp access, o = Done resp /\ credentials_result resp = Some (access, "Bearer", "")%string /\ access <> ""%string.
Proof. exact C98_sdk_gets_token_proof. Qed.
Print Assumptions C98_sdk_gets_token.
Example C98_sdk_gets_token_met : exists S w xs i c sign raw made tls host path o,
  hno_faults xs /\ uses_sdk S w c sign /\ sdk_assertion c sign raw made /\
  In (HvStart i EToken (credentials_request tls host path raw)) (http_history S w xs) /\ In (HvDone i o) (http_history S w xs) /\
  (unix (w_now w + time_in (http_history S w xs)) <= unix (made + 30 * second))%N /\
  cl_type c = CtConfidential /\ cl_dpop_bound c = false /\ listed (sv_ext S) (cl_grant_types c) "client_credentials" /\
  sv_issuer S <> ""%string /\ x_request_uri (sv_ext S) (sv_issuer S) = true /\ web_generators_work (http_history S w xs) i.
Proof.
  exists web_server, (web_world false), x_sdk_token, 0%nat, (happ false), sdk_sign, "sdk-assertion"%string, (1000 * second)%N, true, "as.example"%string, "/token"%string. eexists.
  split; [by_faults|]. split; [apply sdk_uses|]. split; [apply sdk_signed|]. split; [by_start 0%nat|]. split; [by_nth 9%nat|].
  split; [vm_compute; discriminate|]. split; [reflexivity|]. split; [reflexivity|]. split; [apply has_iff; reflexivity|].
  split; [discriminate|]. split; [reflexivity|].
  intros t a [H|H]; scan H; eexists; (split; [reflexivity|discriminate]).
Qed.

Theorem C98_introspection_partial : forall S w xs hh0 hh1 hh2 hh3 i r access expires type refresh scope
    j c sign raw made tls host path o,
  let hh := http_history S w xs in
  registry_ok w -> no_tokens w -> hno_faults xs -> web_no_reuse (sv_ext S) hh -> hh = (hh0 ++ hh1 ++ hh2 ++ hh3)%list ->
  (* an access token is issued *)
  In (HvStart i EToken r) hh1 -> In (HvDone i (Done (HToken access expires type refresh scope))) hh1 ->
  (* it is introspected with the SDK, at least one second and at most an hour later *)
  uses_sdk S w c sign -> sdk_assertion c sign raw made -> (unix (w_now w + time_in hh) <= unix (made + 30 * second))%N ->
  In (HvStart j EIntrospect (introspection_request tls host path raw access)) hh3 -> In (HvDone j o) hh3 ->
  (second <= time_in hh2)%N -> (time_in (hh1 ++ hh2 ++ hh3) <= 3600 * second)%N ->
  (* nobody revoked it *)
  (forall t, web_stored_as (sv_ext S) hh (sv_issuer S) access t -> ~ web_revoked_in hh (t_id t)) ->
  exists doc owner, o = Done (HDoc doc) /\ Client.get "active" doc = Some (JBool true) /\ Client.get "scope" doc = Some (JStr scope) /\
    authenticated S w hh i r owner /\ Client.get "client_id" doc = Some (JStr (cl_id owner)).
Proof. exact C98_introspection_partial_proof. Qed.
Print Assumptions C98_introspection_partial.
Example C98_introspection_partial_met : exists S w xs hh0 hh1 hh2 hh3 i r access expires type refresh scope j c sign raw made tls host path o,
  registry_ok w /\ no_tokens w /\ hno_faults xs /\ web_no_reuse (sv_ext S) (http_history S w xs) /\
  http_history S w xs = (hh0 ++ hh1 ++ hh2 ++ hh3)%list /\
  In (HvStart i EToken r) hh1 /\ In (HvDone i (Done (HToken access expires type refresh scope))) hh1 /\
  uses_sdk S w c sign /\ sdk_assertion c sign raw made /\ (unix (w_now w + time_in (http_history S w xs)) <= unix (made + 30 * second))%N /\
  In (HvStart j EIntrospect (introspection_request tls host path raw access)) hh3 /\ In (HvDone j o) hh3 /\
  (second <= time_in hh2)%N /\ (time_in (hh1 ++ hh2 ++ hh3) <= 3600 * second)%N /\
  (forall t, web_stored_as (sv_ext S) (http_history S w xs) (sv_issuer S) access t -> ~ web_revoked_in (http_history S w xs) (t_id t)).
Proof.
  pose (hh := http_history web_server (web_world false) (x_sdk_two (2 * second))).
  exists web_server, (web_world false), (x_sdk_two (2 * second)), [], (firstn 10 hh), (firstn 1 (skipn 10 hh)), (skipn 11 hh), 0%nat, sdk_token_r.
  do 5 eexists. exists 1%nat, (happ false), sdk_sign, "sdk-assertion"%string, (1000 * second)%N, true, "as.example"%string, "/introspect"%string. eexists.
  split; [apply registry_web|]. split; [apply blank_web|]. split; [by_faults|]. split; [by_reuse|].
  split; [reflexivity|]. split; [by_start 0%nat|]. split; [by_nth 9%nat|].
  split; [apply sdk_uses|]. split; [apply sdk_signed|]. split; [vm_compute; discriminate|].
  split; [by_start 0%nat|]. split; [by_nth 6%nat|]. split; [vm_compute; discriminate|]. split; [vm_compute; discriminate|].
  intros t _ (j & iss & a & H & _). scan H.
Qed.

Theorem C98_sdk_introspects_refuted : forall S w xs hh0 hh1 hh2 hh3 i r access expires type refresh scope
    j c sign raw made tls host path o,
  let hh := http_history S w xs in
  registry_ok w -> no_tokens w -> hno_faults xs -> web_no_reuse (sv_ext S) hh -> hh = (hh0 ++ hh1 ++ hh2 ++ hh3)%list ->
  In (HvStart i EToken r) hh1 -> In (HvDone i (Done (HToken access expires type refresh scope))) hh1 ->
  uses_sdk S w c sign -> sdk_assertion c sign raw made -> (unix (w_now w + time_in hh) <= unix (made + 30 * second))%N ->
  In (HvStart j EIntrospect (introspection_request tls host path raw access)) hh3 -> In (HvDone j o) hh3 ->
  (second <= time_in hh2)%N -> (time_in (hh1 ++ hh2 ++ hh3) <= 3600 * second)%N ->
  (forall t, web_stored_as (sv_ext S) hh (sv_issuer S) access t -> ~ web_revoked_in hh (t_id t)) ->
  exists resp, o = Done resp /\ introspection_result access resp = Crashed.
Proof. exact C98_sdk_introspects_refuted_proof. Qed.
Print Assumptions C98_sdk_introspects_refuted.
Example C98_sdk_introspects_refuted_met : exists S w xs hh0 hh1 hh2 hh3 i r access expires type refresh scope j c sign raw made tls host path o,
  registry_ok w /\ no_tokens w /\ hno_faults xs /\ web_no_reuse (sv_ext S) (http_history S w xs) /\
  http_history S w xs = (hh0 ++ hh1 ++ hh2 ++ hh3)%list /\
  In (HvStart i EToken r) hh1 /\ In (HvDone i (Done (HToken access expires type refresh scope))) hh1 /\
  uses_sdk S w c sign /\ sdk_assertion c sign raw made /\ (unix (w_now w + time_in (http_history S w xs)) <= unix (made + 30 * second))%N /\
  In (HvStart j EIntrospect (introspection_request tls host path raw access)) hh3 /\ In (HvDone j o) hh3 /\
  (second <= time_in hh2)%N /\ (time_in (hh1 ++ hh2 ++ hh3) <= 3600 * second)%N /\
  (forall t, web_stored_as (sv_ext S) (http_history S w xs) (sv_issuer S) access t -> ~ web_revoked_in (http_history S w xs) (t_id t)).
Proof.
  pose (hh := http_history web_server (web_world false) (x_sdk_two (2 * second))).
  exists web_server, (web_world false), (x_sdk_two (2 * second)), [], (firstn 10 hh), (firstn 1 (skipn 10 hh)), (skipn 11 hh), 0%nat, sdk_token_r.
  do 5 eexists. exists 1%nat, (happ false), sdk_sign, "sdk-assertion"%string, (1000 * second)%N, true, "as.example"%string, "/introspect"%string. eexists.
  split; [apply registry_web|]. split; [apply blank_web|]. split; [by_faults|]. split; [by_reuse|].
  split; [reflexivity|]. split; [by_start 0%nat|]. split; [by_nth 9%nat|].
  split; [apply sdk_uses|]. split; [apply sdk_signed|]. split; [vm_compute; discriminate|].
  split; [by_start 0%nat|]. split; [by_nth 6%nat|]. split; [vm_compute; discriminate|]. split; [vm_compute; discriminate|].
  intros t _ (j & iss & a & H & _). scan H.
Qed.

Theorem C98_new_token_is_active_refuted : forall S w xs hh0 hh1 hh2 i r access expires type refresh scope j q doc,
  let hh := http_history S w xs in
  registry_ok w -> no_tokens w -> hno_faults xs -> web_no_reuse (sv_ext S) hh -> hh = (hh0 ++ hh1 ++ hh2)%list ->
  In (HvStart i EToken r) hh1 -> In (HvDone i (Done (HToken access expires type refresh scope))) hh1 ->
  responded hh j EIntrospect q (HDoc doc) -> form_value q "token" = access ->
  unix (w_now w + time_in hh) = unix (w_now w + time_in hh0) ->
  doc = [("active"%string, JBool false)].
Proof. exact C98_new_token_is_active_refuted_proof. Qed.
Print Assumptions C98_new_token_is_active_refuted.
Example C98_new_token_is_active_refuted_met : exists S w xs hh0 hh1 hh2 i r access expires type refresh scope j q doc,
  registry_ok w /\ no_tokens w /\ hno_faults xs /\ web_no_reuse (sv_ext S) (http_history S w xs) /\
  http_history S w xs = (hh0 ++ hh1 ++ hh2)%list /\
  In (HvStart i EToken r) hh1 /\ In (HvDone i (Done (HToken access expires type refresh scope))) hh1 /\
  responded (http_history S w xs) j EIntrospect q (HDoc doc) /\ form_value q "token" = access /\
  unix (w_now w + time_in (http_history S w xs)) = unix (w_now w + time_in hh0).
Proof.
  pose (hh := http_history web_server (web_world false) (x_sdk_two 1)).
  exists web_server, (web_world false), (x_sdk_two 1), [], (firstn 10 hh), (skipn 10 hh), 0%nat, sdk_token_r. do 5 eexists.
  exists 1%nat, sdk_introspect_r. eexists.
  split; [apply registry_web|]. split; [apply blank_web|]. split; [by_faults|]. split; [by_reuse|].
  split; [reflexivity|]. split; [by_start 0%nat|]. split; [by_nth 9%nat|].
  split; [split; [by_start 11%nat|by_nth 17%nat]|]. split; [reflexivity|vm_compute; reflexivity].
Qed.

Theorem C98_bound_client_refuted : forall S w xs i c sign raw made tls host path resp,
  let hh := http_history S w xs in
  hno_faults xs -> uses_sdk S w c sign -> sdk_assertion c sign raw made -> cl_dpop_bound c = true ->
  In (HvStart i EToken (credentials_request tls host path raw)) hh -> In (HvDone i (Done resp)) hh ->
  (unix (w_now w + time_in hh) <= unix (made + 30 * second))%N -> credentials_result resp = None.
Proof. exact C98_bound_client_refuted_proof. Qed.
Print Assumptions C98_bound_client_refuted.
Example C98_bound_client_refuted_met : exists S w xs i c sign raw made tls host path resp,
  hno_faults xs /\ uses_sdk S w c sign /\ sdk_assertion c sign raw made /\ cl_dpop_bound c = true /\
  In (HvStart i EToken (credentials_request tls host path raw)) (http_history S w xs) /\ In (HvDone i (Done resp)) (http_history S w xs) /\
  (unix (w_now w + time_in (http_history S w xs)) <= unix (made + 30 * second))%N.
Proof.
  exists web_server, (web_world true), x_sdk_token, 0%nat, (happ true), sdk_sign, "sdk-assertion"%string, (1000 * second)%N, true, "as.example"%string, "/token"%string. eexists.
  split; [by_faults|]. split; [apply sdk_uses|]. split; [apply sdk_signed|]. split; [reflexivity|].
  split; [by_start 0%nat|]. split; [by_nth 3%nat|]. vm_compute; discriminate.
Qed.

(** ** C99 A refresh token works for a week *)

Theorem C99_web_refresh_works : forall S w xs hh0 hh1 hh2 k r0 access0 expires0 type0 value scope0 i r c cnf o,
  let hh := http_history S w xs in
  registry_ok w -> no_tokens w -> hno_faults xs -> web_no_reuse (sv_ext S) hh -> hh = (hh0 ++ hh1 ++ hh2)%list ->
  (* client [c] is given a refresh token *)
  In (HvStart k EToken r0) hh1 -> In (HvDone k (Done (HToken access0 expires0 type0 value scope0))) hh1 ->
  value <> ""%string -> (forall c0, authenticated S w hh k r0 c0 -> c0 = c) ->
  (* it presents it within a week *)
  In (HvStart i EToken r) hh2 -> In (HvDone i o) hh2 -> (time_in (hh1 ++ hh2) <= 604800 * second)%N ->
  sends_refresh r value -> comes_from S w hh i r c -> holds S w hh i r c cnf ->
  listed (sv_ext S) (cl_grant_types c) "refresh_token" -> web_generators_work hh i ->
  (* nobody else uses it *)
  (forall j e r', In (HvStart j e r') hh -> web_uses_up S e r' value -> j = i) ->
  exists access expires refresh scope, access <> ""%string /\ o = Done (HToken access expires (type_sent cnf) refresh scope).
Proof. exact C99_web_refresh_works_proof. Qed.
Print Assumptions C99_web_refresh_works.
Example C99_web_refresh_works_met : exists S w xs hh0 hh1 hh2 k r0 access0 expires0 type0 value scope0 i r c cnf o,
  registry_ok w /\ no_tokens w /\ hno_faults xs /\ web_no_reuse (sv_ext S) (http_history S w xs) /\
  http_history S w xs = (hh0 ++ hh1 ++ hh2)%list /\
  In (HvStart k EToken r0) hh1 /\ In (HvDone k (Done (HToken access0 expires0 type0 value scope0))) hh1 /\
  value <> ""%string /\ (forall c0, authenticated S w (http_history S w xs) k r0 c0 -> c0 = c) /\
  In (HvStart i EToken r) hh2 /\ In (HvDone i o) hh2 /\ (time_in (hh1 ++ hh2) <= 604800 * second)%N /\
  sends_refresh r value /\ comes_from S w (http_history S w xs) i r c /\ holds S w (http_history S w xs) i r c cnf /\
  listed (sv_ext S) (cl_grant_types c) "refresh_token" /\ web_generators_work (http_history S w xs) i /\
  (forall j e r', In (HvStart j e r') (http_history S w xs) -> web_uses_up S e r' value -> j = i).
Proof.
  exists web_server, (web_world false), x_web_refresh, (firstn 7 h_refresh), (firstn 16 (skipn 7 h_refresh)), (skipn 16 (skipn 7 h_refresh)), 1%nat, (redeem_r []).
  eexists. eexists. eexists. exists "rt-1"%string. eexists. exists 2%nat, refresh2_r, (happ false), None. eexists.
  split; [apply registry_web|]. split; [apply blank_web|]. split; [by_faults|]. split; [by_reuse|].
  split; [vm_compute; reflexivity|]. split; [by_start 0%nat|]. split; [by_nth 15%nat|]. split; [discriminate|].
  split. { intros c0 [(H & _)|[(_ & _ & cl & keys & k & H1 & H2 & _)|(_ & H & _)]]; [contradiction H; reflexivity| |discriminate H].
    cbn in H1. injection H1 as <-. cbn in H2. injection H2 as <-. reflexivity. }
  split; [by_start 1%nat|]. split; [by_nth 17%nat|]. split; [vm_compute; discriminate|].
  split; [split; reflexivity|]. split; [apply from_app; [reflexivity|reflexivity|right; split; [reflexivity|vm_compute; discriminate]]|].
  split; [left; repeat split|]. split; [apply has_iff; reflexivity|].
  split; [apply generators_demo; vm_compute; reflexivity|].
  intros j e r' H.
  pose proof (starts_demo (fun j e r => Nat.eqb j 2 || (match e with ERevoke => false | _ => negb (String.eqb (form_value r "grant_type") "refresh_token") end)) h_refresh
    ltac:(vm_compute; reflexivity) _ _ _ H) as D. cbv beta in D. clear H. apply orb_prop in D as [D|D]; [intros _; apply Nat.eqb_eq, D|].
  destruct e; try discriminate D; try (intros []; fail). intros [Hx _]. rewrite Hx in D. discriminate D.
Qed.

(** ** C100 A code that was handed out is redeemed *)

Theorem C100_web_code_redeemed : forall S w xs hh0 hh1 hh2 k q code subject ar a i r c cnf o,
  let hh := http_history S w xs in
  let E := sv_ext S in
  let verifier := form_value r "code_verifier" in
  registry_ok w -> hno_faults xs -> hh = (hh0 ++ hh1 ++ hh2)%list -> (time_in (hh1 ++ hh2) <= 60 * second)%N ->
  (* a user authorizes a client, which is sent a code *)
  In (HvStart k EAuthorize q) hh1 -> got_code hh1 k q ->
  In (HvCall k (CSessReg (sv_issuer S) code (mkSess (sv_issuer S) subject (Some ar))) a) hh1 ->
  asks E (ar_scope ar) "openid" ->
  (* within a minute this client redeems it *)
  In (HvStart i EToken r) hh2 -> In (HvDone i o) hh2 ->
  sends_code r code -> form_value r "redirect_uri" = ar_redirect_uri ar ->
  (43 <= String.length verifier <= 128)%nat -> b64url (x_sha256 E verifier) = ar_code_challenge ar ->
  comes_from S w hh i r c -> cl_id c = ar_client_id ar -> holds S w hh i r c cnf ->
  x_request_uri E (sv_issuer S) = true -> code <> ""%string -> (rune_count code <= 1024)%nat ->
  web_generators_work hh i ->
  (* nobody else has that code *)
  (forall k' iss' code' s a', In (HvCall k' (CSessReg iss' code' s) a') (hh1 ++ hh2) ->
     sess_key E iss' code' = sess_key E (sv_issuer S) code -> k' = k) ->
  (forall j r' code', In (HvStart j EToken r') hh -> sends_code r' code' ->
     sess_key E (sv_issuer S) code' = sess_key E (sv_issuer S) code -> j = i) ->
  exists access expires refresh scope, access <> ""%string /\ o = Done (HToken access expires (type_sent cnf) refresh scope) /\
    (asks E (ar_scope ar) "offline_access" -> ar_prompt ar = Some "consent"%string -> refresh <> ""%string).
Proof. exact C100_web_code_redeemed_proof. Qed.
Print Assumptions C100_web_code_redeemed.
Example C100_web_code_redeemed_met : exists S w xs hh0 hh1 hh2 k q code subject ar a i r c cnf o,
  registry_ok w /\ hno_faults xs /\ http_history S w xs = (hh0 ++ hh1 ++ hh2)%list /\ (time_in (hh1 ++ hh2) <= 60 * second)%N /\
  In (HvStart k EAuthorize q) hh1 /\ got_code hh1 k q /\
  In (HvCall k (CSessReg (sv_issuer S) code (mkSess (sv_issuer S) subject (Some ar))) a) hh1 /\
  asks (sv_ext S) (ar_scope ar) "openid" /\
  In (HvStart i EToken r) hh2 /\ In (HvDone i o) hh2 /\
  sends_code r code /\ form_value r "redirect_uri" = ar_redirect_uri ar /\
  (43 <= String.length (form_value r "code_verifier") <= 128)%nat /\
  b64url (x_sha256 (sv_ext S) (form_value r "code_verifier")) = ar_code_challenge ar /\
  comes_from S w (http_history S w xs) i r c /\ cl_id c = ar_client_id ar /\ holds S w (http_history S w xs) i r c cnf /\
  x_request_uri (sv_ext S) (sv_issuer S) = true /\ code <> ""%string /\ (rune_count code <= 1024)%nat /\
  web_generators_work (http_history S w xs) i /\
  (forall k' iss' code' s a', In (HvCall k' (CSessReg iss' code' s) a') (hh1 ++ hh2)%list ->
     sess_key (sv_ext S) iss' code' = sess_key (sv_ext S) (sv_issuer S) code -> k' = k) /\
  (forall j r' code', In (HvStart j EToken r') (http_history S w xs) -> sends_code r' code' ->
     sess_key (sv_ext S) (sv_issuer S) code' = sess_key (sv_ext S) (sv_issuer S) code -> j = i) /\
  asks (sv_ext S) (ar_scope ar) "offline_access" /\ ar_prompt ar = Some "consent"%string /\ cnf <> None.
Proof.
  exists web_server, (web_world true), x_http_code, (firstn 0 h_bound), (firstn 7 (skipn 0 h_bound)), (skipn 7 (skipn 0 h_bound)), 0%nat, (authorize_r "app" "req-app"), "code-1"%string.
  do 3 eexists. exists 1%nat, (redeem_r dpop1), (happ true). do 2 eexists.
  split; [apply registry_web|]. split; [by_faults|]. split; [vm_compute; reflexivity|]. split; [vm_compute; discriminate|].
  split; [by_start 0%nat|]. split; [eexists; split; [split; [by_start 0%nat|by_nth 6%nat]|exact I]|].
  split; [by_nth 4%nat|]. split; [apply has_iff; reflexivity|].
  split; [by_start 0%nat|]. split; [by_nth 19%nat|]. split; [split; reflexivity|]. split; [reflexivity|].
  split; [vm_compute; repeat constructor|]. split; [vm_compute; reflexivity|].
  split; [apply from_app; [reflexivity|reflexivity|left; split; [reflexivity|vm_compute; discriminate]]|].
  split; [reflexivity|].
  split. { right. split; [reflexivity|]. exists "thumb:instance-key"%string. split; [|reflexivity].
    exists "jti-3"%string, 1000%N, EToken, [], h_bound. split; [exact (proof_good "proof" "jti-3" "/token" (or_introl eq_refl))|].
    split; [vm_compute; reflexivity|]. split; [by_start 7%nat|]. split; [vm_compute; discriminate|]. split; [vm_compute; discriminate|]. split; [reflexivity|].
    intros j a H. apply Nat.eqb_eq. exact (proofs_demo (fun j _ => Nat.eqb j 1) h_bound ltac:(vm_compute; reflexivity) _ _ _ H). }
  split; [reflexivity|]. split; [discriminate|]. split; [apply Nat.leb_le; vm_compute; reflexivity|].
  split; [apply generators_demo; vm_compute; reflexivity|].
  split. { intros k' iss' code' s a' H _. apply Nat.eqb_eq.
    exact (sessions_demo (fun j _ _ _ => Nat.eqb j 0) (firstn 7 (skipn 0 h_bound) ++ skipn 7 (skipn 0 h_bound)) ltac:(vm_compute; reflexivity) _ _ _ _ _ H). }
  split. { intros j r' code' H _ _. apply Nat.eqb_eq.
    exact (starts_demo (fun j e _ => match e with EToken => Nat.eqb j 1 | _ => true end) h_bound ltac:(vm_compute; reflexivity) _ _ _ H). }
  split; [apply has_iff; reflexivity|]. split; [reflexivity|discriminate].
Qed.

(** ** C101 A proper authorization request is answered with a code *)

Theorem C101_web_authorized : forall S w xs i r user c sub ar o,
  let hh := http_history S w xs in
  hno_faults xs -> In (HvStart i EAuthorize r) hh -> In (HvDone i o) hh ->
  (* a user logs in and follows a link of a client *)
  hq_method r = "GET"%string -> user_logged_in r user -> w_clients w (query_get r "client_id") = Some c ->
  subject_for (sv_ext S) (sv_salt S) c user sub -> sub <> ""%string ->
  (* which carries a proper authorization request *)
  carries S c r ar -> ar_request_uri ar = None -> ar_client_id ar = query_get r "client_id" ->
  SpecLive.well_formed (sv_ext S) ar -> SpecLive.permitted (sv_ext S) c ar ->
  sv_issuer S <> ""%string -> web_codes_work hh i -> responses_signed S ->
  (* the user is sent back with a code, and the code stands for this request *)
  exists resp code ar' a, o = Done resp /\ sends_back S resp (ar_redirect_uri ar) code (ar_state ar) (ar_client_id ar) /\
    In (HvCall i (CSessReg (sv_issuer S) code (mkSess (sv_issuer S) sub (Some ar'))) a) hh /\ normalized (sv_ext S) ar ar'.
Proof. exact C101_web_authorized_proof. Qed.
Print Assumptions C101_web_authorized.
Example C101_web_authorized_met : exists S w xs i r user c sub ar o,
  hno_faults xs /\ In (HvStart i EAuthorize r) (http_history S w xs) /\ In (HvDone i o) (http_history S w xs) /\
  hq_method r = "GET"%string /\ user_logged_in r user /\ w_clients w (query_get r "client_id") = Some c /\
  subject_for (sv_ext S) (sv_salt S) c user sub /\ sub <> ""%string /\
  carries S c r ar /\ ar_request_uri ar = None /\ ar_client_id ar = query_get r "client_id" /\
  SpecLive.well_formed (sv_ext S) ar /\ SpecLive.permitted (sv_ext S) c ar /\
  sv_issuer S <> ""%string /\ web_codes_work (http_history S w xs) i /\ responses_signed S.
Proof.
  exists web_server, (web_world true), x_http_code, 0%nat, (authorize_r "app" "req-app"), "hello"%string, (happ true). do 3 eexists.
  split; [by_faults|]. split; [by_start 0%nat|]. split; [by_nth 6%nat|]. split; [reflexivity|]. split; [split; reflexivity|].
  split; [reflexivity|]. split; [vm_compute; reflexivity|]. split; [discriminate|].
  split; [split; [discriminate|]; split; [apply app_signed; reflexivity|vm_compute; reflexivity]|].
  split; [reflexivity|]. split; [reflexivity|]. split; [apply areq_good; exact true|]. split; [apply areq_good|]. split; [discriminate|].
  split; [apply codes_demo; vm_compute; reflexivity|]. intros cl. eexists. reflexivity.
Qed.

(** ** C102 A proper pushed request is accepted *)

Theorem C102_web_pushed : forall S w xs i r c th ar o,
  let hh := http_history S w xs in
  hno_faults xs -> In (HvStart i EPar r) hh -> In (HvDone i o) hh ->
  (* a client pushes a proper request, with a proof of possession *)
  hq_method r = "POST"%string -> comes_from S w hh i r c -> has_proof S w hh i r th ->
  carries S c r ar -> ar_request_uri ar = None -> ar_client_id ar = cl_id c -> w_clients w (cl_id c) = Some c ->
  SpecLive.well_formed (sv_ext S) ar -> SpecLive.permitted (sv_ext S) c ar ->
  sv_issuer S <> ""%string -> web_codes_work hh i ->
  exists uri, uri <> ""%string /\ o = Done (HPushed (sv_issuer S) uri 60).
Proof. exact C102_web_pushed_proof. Qed.
Print Assumptions C102_web_pushed.
Example C102_web_pushed_met : exists S w xs i r c th ar o,
  hno_faults xs /\ In (HvStart i EPar r) (http_history S w xs) /\ In (HvDone i o) (http_history S w xs) /\
  hq_method r = "POST"%string /\ comes_from S w (http_history S w xs) i r c /\ has_proof S w (http_history S w xs) i r th /\
  carries S c r ar /\ ar_request_uri ar = None /\ ar_client_id ar = cl_id c /\ w_clients w (cl_id c) = Some c /\
  SpecLive.well_formed (sv_ext S) ar /\ SpecLive.permitted (sv_ext S) c ar /\
  sv_issuer S <> ""%string /\ web_codes_work (http_history S w xs) i.
Proof.
  exists web_server, (web_world true), x_http_par, 0%nat, par_r, (happ true), "thumb:instance-key"%string. do 2 eexists.
  split; [by_faults|]. split; [by_start 0%nat|]. split; [by_nth 10%nat|]. split; [reflexivity|].
  split; [apply from_app; [reflexivity|reflexivity|left; split; [reflexivity|vm_compute; discriminate]]|].
  split. { exists "jti-6"%string, 1000%N, EPar, [], h_par. split; [exact (proof_good "proof-par" "jti-6" "/par" (or_intror eq_refl))|].
    split; [vm_compute; reflexivity|]. split; [by_start 0%nat|]. split; [vm_compute; discriminate|]. split; [vm_compute; discriminate|]. split; [reflexivity|].
    intros j a H. apply Nat.eqb_eq. exact (proofs_demo (fun j _ => Nat.eqb j 0) h_par ltac:(vm_compute; reflexivity) _ _ _ H). }
  split; [split; [discriminate|]; split; [apply app_signed; reflexivity|vm_compute; reflexivity]|].
  split; [reflexivity|]. split; [reflexivity|]. split; [reflexivity|]. split; [apply areq_good; exact true|]. split; [apply areq_good|]. split; [discriminate|].
  apply codes_demo; vm_compute; reflexivity.
Qed.

(** ** C103 A pushed request is followed within a minute *)

Theorem C103_web_pushed_request_followed : forall S w xs hh0 hh1 hh2 k q iss uri expires ar i r user c sub ar0 o,
  let hh := http_history S w xs in
  let E := sv_ext S in
  hno_faults xs -> hh = (hh0 ++ hh1 ++ hh2)%list -> (time_in (hh1 ++ hh2) <= 60 * second)%N ->
  (* a client pushes the request [ar] *)
  In (HvStart k EPar q) hh1 -> In (HvDone k (Done (HPushed iss uri expires))) hh1 ->
  sv_decoder S (query_get q "request") = Some ar ->
  (* within a minute a user logs in and follows a link with the request URI *)
  In (HvStart i EAuthorize r) hh2 -> In (HvDone i o) hh2 ->
  hq_method r = "GET"%string -> user_logged_in r user -> w_clients w (query_get r "client_id") = Some c ->
  subject_for E (sv_salt S) c user sub -> sub <> ""%string ->
  carries S c r ar0 -> ar_request_uri ar0 = Some uri -> x_uri_valid E uri = true ->
  web_codes_work hh i -> responses_signed S ->
  (* nobody else has that request URI *)
  (forall k' iss' uri' s a, In (HvCall k' (CReqReg iss' uri' s) a) (hh1 ++ hh2) ->
     req_key E iss' uri' = req_key E (sv_issuer S) uri -> k' = k) ->
  (forall j r' uri', In (HvStart j EAuthorize r') hh -> sends_request_uri S r' uri' ->
     req_key E (sv_issuer S) uri' = req_key E (sv_issuer S) uri -> j = i) ->
  (* the user is sent back with a code *)
  (* and the code stands for the request that was pushed *)
  exists resp code ar' a, o = Done resp /\ sends_back S resp (ar_redirect_uri ar) code (ar_state ar) (ar_client_id ar) /\
    In (HvCall i (CSessReg (sv_issuer S) code (mkSess (sv_issuer S) sub (Some ar'))) a) hh /\ normalized E ar ar'.
Proof. exact C103_web_pushed_request_followed_proof. Qed.
Print Assumptions C103_web_pushed_request_followed.
Example C103_web_pushed_request_followed_met : exists S w xs hh0 hh1 hh2 k q iss uri expires ar i r user c sub ar0 o,
  hno_faults xs /\ http_history S w xs = (hh0 ++ hh1 ++ hh2)%list /\ (time_in (hh1 ++ hh2) <= 60 * second)%N /\
  In (HvStart k EPar q) hh1 /\ In (HvDone k (Done (HPushed iss uri expires))) hh1 /\
  sv_decoder S (query_get q "request") = Some ar /\
  In (HvStart i EAuthorize r) hh2 /\ In (HvDone i o) hh2 /\
  hq_method r = "GET"%string /\ user_logged_in r user /\ w_clients w (query_get r "client_id") = Some c /\
  subject_for (sv_ext S) (sv_salt S) c user sub /\ sub <> ""%string /\
  carries S c r ar0 /\ ar_request_uri ar0 = Some uri /\ x_uri_valid (sv_ext S) uri = true /\
  web_codes_work (http_history S w xs) i /\ responses_signed S /\
  (forall k' iss' uri' s a, In (HvCall k' (CReqReg iss' uri' s) a) (hh1 ++ hh2) ->
     req_key (sv_ext S) iss' uri' = req_key (sv_ext S) (sv_issuer S) uri -> k' = k) /\
  (forall j r' uri', In (HvStart j EAuthorize r') (http_history S w xs) -> sends_request_uri S r' uri' ->
     req_key (sv_ext S) (sv_issuer S) uri' = req_key (sv_ext S) (sv_issuer S) uri -> j = i).
Proof.
  exists web_server, (web_world true), x_http_par, (firstn 0 h_par), (firstn 11 (skipn 0 h_par)), (skipn 11 (skipn 0 h_par)), 0%nat, par_r.
  eexists. exists "urn:solid:1"%string. do 2 eexists. exists 1%nat, (authorize_r "app" "req-by-uri"), "hello"%string, (happ true). do 3 eexists.
  split; [by_faults|]. split; [vm_compute; reflexivity|]. split; [vm_compute; discriminate|].
  split; [by_start 0%nat|]. split; [by_nth 10%nat|]. split; [vm_compute; reflexivity|].
  split; [by_start 0%nat|]. split; [by_nth 8%nat|]. split; [reflexivity|]. split; [split; reflexivity|]. split; [reflexivity|].
  split; [vm_compute; reflexivity|]. split; [discriminate|].
  split; [split; [discriminate|]; split; [apply app_signed; reflexivity|vm_compute; reflexivity]|].
  split; [reflexivity|]. split; [reflexivity|]. split; [apply codes_demo; vm_compute; reflexivity|].
  split; [intros cl; eexists; reflexivity|].
  split. { intros k' iss' uri' s a H _. apply Nat.eqb_eq.
    exact (requests_demo (fun j _ _ _ => Nat.eqb j 0) (firstn 11 (skipn 0 h_par) ++ skipn 11 (skipn 0 h_par)) ltac:(vm_compute; reflexivity) _ _ _ _ _ H). }
  intros j r' uri' H _ _. apply Nat.eqb_eq.
  exact (starts_demo (fun j e _ => match e with EAuthorize => Nat.eqb j 1 | _ => true end) h_par ltac:(vm_compute; reflexivity) _ _ _ H).
Qed.

(** ** C104 The device flow works end to end over HTTP *)

Theorem C104_web_device_starts : forall S w xs i r c c' o,
  let hh := http_history S w xs in
  hno_faults xs -> In (HvStart i EDeviceAuthorize r) hh -> In (HvDone i o) hh ->
  (* the request comes from a client and names one that may use the device flow *)
  hq_method r = "POST"%string -> comes_from S w hh i r c -> form_value r "client_id" <> ""%string ->
  w_clients w (form_value r "client_id") = Some c' ->
  listed (sv_ext S) (cl_grant_types c') "urn:ietf:params:oauth:grant-type:device_code" ->
  sv_issuer S <> ""%string -> web_device_codes_work hh i ->
  exists device_code user_code, device_code <> ""%string /\ user_code <> ""%string /\
    o = Done (HDevice device_code user_code (sv_issuer S ++ "/device") 120 5).
Proof. exact C104_web_device_starts_proof. Qed.
Print Assumptions C104_web_device_starts.
Example C104_web_device_starts_met : exists S w xs i r c c' o,
  hno_faults xs /\ In (HvStart i EDeviceAuthorize r) (http_history S w xs) /\ In (HvDone i o) (http_history S w xs) /\
  hq_method r = "POST"%string /\ comes_from S w (http_history S w xs) i r c /\ form_value r "client_id" <> ""%string /\
  w_clients w (form_value r "client_id") = Some c' /\
  listed (sv_ext S) (cl_grant_types c') "urn:ietf:params:oauth:grant-type:device_code" /\
  sv_issuer S <> ""%string /\ web_device_codes_work (http_history S w xs) i.
Proof.
  exists web_server, web_worlds, x_web_device, 0%nat, device_scope_r, (happ true), (happ true). eexists.
  split; [by_faults|]. split; [by_start 0%nat|]. split; [by_nth 7%nat|]. split; [reflexivity|].
  split; [apply (from_app true); [reflexivity|reflexivity|left; split; [reflexivity|vm_compute; discriminate]]|].
  split; [discriminate|]. split; [reflexivity|]. split; [apply has_iff; reflexivity|]. split; [discriminate|].
  apply device_codes_demo; vm_compute; reflexivity.
Qed.

Theorem C104_web_device_approved_partial : forall S w xs hh0 hh1 hh2 d rd device_code user_code uri expires interval i r o,
  let hh := http_history S w xs in
  hno_faults xs ->
  (* the store marks new device sessions as pending, valid for 120 s *)
  w_stamp w = stamping 120 -> sv_issuer S <> ""%string ->
  hh = (hh0 ++ hh1 ++ hh2)%list -> (time_in (hh1 ++ hh2) <= 120 * second)%N ->
  web_device_codes_apart (sv_ext S) hh ->
  (* a device is given codes *)
  In (HvStart d EDeviceAuthorize rd) hh1 ->
  In (HvDone d (Done (HDevice device_code user_code uri expires interval))) hh1 ->
  (* then a user logs in and sends the user code *)
  In (HvStart i EDevice r) hh2 -> In (HvDone i o) hh2 ->
  hq_method r = "POST"%string -> hq_basic r = Some ("hello", "world")%string ->
  post_value r "user_code" = user_code -> user_code <> ""%string ->
  (* nobody else sends it *)
  (forall k r' issuer, In (HvStart k EDevice r') hh ->
     user_key (sv_ext S) issuer (post_value r' "user_code") = user_key (sv_ext S) (sv_issuer S) user_code -> k = i) ->
  o = Done HEmpty.
Proof. exact C104_web_device_approved_partial_proof. Qed.
Print Assumptions C104_web_device_approved_partial.
Example C104_web_device_approved_partial_met : exists S w xs hh0 hh1 hh2 d rd device_code user_code uri expires interval i r o,
  hno_faults xs /\ w_stamp w = stamping 120 /\ sv_issuer S <> ""%string /\
  http_history S w xs = (hh0 ++ hh1 ++ hh2)%list /\ (time_in (hh1 ++ hh2) <= 120 * second)%N /\
  web_device_codes_apart (sv_ext S) (http_history S w xs) /\ In (HvStart d EDeviceAuthorize rd) hh1 /\
  In (HvDone d (Done (HDevice device_code user_code uri expires interval))) hh1 /\
  In (HvStart i EDevice r) hh2 /\ In (HvDone i o) hh2 /\
  hq_method r = "POST"%string /\ hq_basic r = Some ("hello", "world")%string /\
  post_value r "user_code" = user_code /\ user_code <> ""%string /\
  (forall k r' issuer, In (HvStart k EDevice r') (http_history S w xs) ->
     user_key (sv_ext S) issuer (post_value r' "user_code") = user_key (sv_ext S) (sv_issuer S) user_code -> k = i).
Proof.
  exists web_server, web_worlds, x_web_device, (firstn 0 h_device), (firstn 8 (skipn 0 h_device)), (skipn 8 (skipn 0 h_device)), 0%nat, device_scope_r.
  do 5 eexists. exists 1%nat, approve_r. eexists.
  split; [by_faults|]. split; [reflexivity|]. split; [discriminate|]. split; [vm_compute; reflexivity|]. split; [vm_compute; discriminate|].
  split; [apply (device_one_demo _ _ 0%nat); vm_compute; reflexivity|]. split; [by_start 0%nat|]. split; [by_nth 7%nat|].
  split; [by_start 0%nat|]. split; [by_nth 5%nat|]. split; [reflexivity|]. split; [reflexivity|]. split; [reflexivity|]. split; [discriminate|].
  intros j r' i' H _. apply Nat.eqb_eq.
  exact (starts_demo (fun j e _ => match e with EDevice => Nat.eqb j 1 | _ => true end) h_device ltac:(vm_compute; reflexivity) _ _ _ H).
Qed.

Theorem C104_web_device_tokens_partial : forall S w xs hh0 hh1 hh2 d rd device_code user_code uri expires interval k rk i r c cnf o,
  let hh := http_history S w xs in
  registry_ok w -> blank w -> hno_faults xs ->
  (* the store marks new device sessions as pending, valid for 120 s *)
  w_stamp w = stamping 120 -> x_request_uri (sv_ext S) (sv_issuer S) = true ->
  hh = (hh0 ++ hh1 ++ hh2)%list -> (time_in (hh1 ++ hh2) <= 120 * second)%N ->
  web_device_codes_apart (sv_ext S) hh ->
  (* a device is given codes, a user approves *)
  In (HvStart d EDeviceAuthorize rd) hh1 ->
  In (HvDone d (Done (HDevice device_code user_code uri expires interval))) hh1 ->
  In (HvStart k EDevice rk) hh1 -> In (HvDone k (Done HEmpty)) hh1 -> post_value rk "user_code" = user_code ->
  (* then the device polls for the client it named *)
  In (HvStart i EToken r) hh2 -> In (HvDone i o) hh2 ->
  comes_from S w hh i r c -> holds S w hh i r c cnf ->
  form_value r "grant_type" = "urn:ietf:params:oauth:grant-type:device_code"%string ->
  form_value r "device_code" = device_code -> device_code <> ""%string -> cl_id c = form_value rd "client_id" ->
  listed (sv_ext S) (cl_grant_types c) "urn:ietf:params:oauth:grant-type:device_code" ->
  web_generators_work hh i ->
  exists access expires' refresh scope, o = Done (HToken access expires' (type_sent cnf) refresh scope).
Proof. exact C104_web_device_tokens_partial_proof. Qed.
Print Assumptions C104_web_device_tokens_partial.
Example C104_web_device_tokens_partial_met : exists S w xs hh0 hh1 hh2 d rd device_code user_code uri expires interval k rk i r c cnf o,
  registry_ok w /\ blank w /\ hno_faults xs /\ w_stamp w = stamping 120 /\ x_request_uri (sv_ext S) (sv_issuer S) = true /\
  http_history S w xs = (hh0 ++ hh1 ++ hh2)%list /\ (time_in (hh1 ++ hh2) <= 120 * second)%N /\
  web_device_codes_apart (sv_ext S) (http_history S w xs) /\ In (HvStart d EDeviceAuthorize rd) hh1 /\
  In (HvDone d (Done (HDevice device_code user_code uri expires interval))) hh1 /\
  In (HvStart k EDevice rk) hh1 /\ In (HvDone k (Done HEmpty)) hh1 /\ post_value rk "user_code" = user_code /\
  In (HvStart i EToken r) hh2 /\ In (HvDone i o) hh2 /\
  comes_from S w (http_history S w xs) i r c /\ holds S w (http_history S w xs) i r c cnf /\
  form_value r "grant_type" = "urn:ietf:params:oauth:grant-type:device_code"%string /\
  form_value r "device_code" = device_code /\ device_code <> ""%string /\ cl_id c = form_value rd "client_id" /\
  listed (sv_ext S) (cl_grant_types c) "urn:ietf:params:oauth:grant-type:device_code" /\
  web_generators_work (http_history S w xs) i.
Proof.
  exists web_server, web_worlds, x_web_device, (firstn 0 h_device), (firstn 14 (skipn 0 h_device)), (skipn 14 (skipn 0 h_device)), 0%nat, device_scope_r.
  do 5 eexists. exists 1%nat, approve_r, 2%nat, (poll_r dpop1), (happ true). do 2 eexists.
  split; [apply registry_webs|]. split; [apply blank_webs|]. split; [by_faults|]. split; [reflexivity|]. split; [reflexivity|].
  split; [vm_compute; reflexivity|]. split; [vm_compute; discriminate|].
  split; [apply (device_one_demo _ _ 0%nat); vm_compute; reflexivity|]. split; [by_start 0%nat|]. split; [by_nth 7%nat|].
  split; [by_start 8%nat|]. split; [by_nth 13%nat|]. split; [reflexivity|]. split; [by_start 0%nat|]. split; [by_nth 19%nat|].
  split; [apply (from_app true); [reflexivity|reflexivity|left; split; [reflexivity|vm_compute; discriminate]]|].
  split. { right. split; [reflexivity|]. exists "thumb:instance-key"%string. split; [|reflexivity].
    exists "jti-3"%string, 1000%N, EToken, [], h_device. split; [exact (proof_good "proof" "jti-3" "/token" (or_introl eq_refl))|].
    split; [vm_compute; reflexivity|]. split; [by_start 14%nat|]. split; [vm_compute; discriminate|]. split; [vm_compute; discriminate|]. split; [reflexivity|].
    intros j a H. apply Nat.eqb_eq. exact (proofs_demo (fun j _ => Nat.eqb j 2) h_device ltac:(vm_compute; reflexivity) _ _ _ H). }
  split; [reflexivity|]. split; [reflexivity|]. split; [discriminate|]. split; [reflexivity|]. split; [apply has_iff; reflexivity|].
  apply generators_demo; vm_compute; reflexivity.
Qed.

Theorem C104_web_device_flow_partial : forall S w xs hh0 hh1 hh2 hh3 d rd cd cd' od k rk ok i r c cnf o,
  let hh := http_history S w xs in
  registry_ok w -> blank w -> hno_faults xs ->
  (* the store marks new device sessions as pending, valid for 120 s *)
  w_stamp w = stamping 120 -> sv_issuer S <> ""%string -> x_request_uri (sv_ext S) (sv_issuer S) = true ->
  hh = (hh0 ++ hh1 ++ hh2 ++ hh3)%list -> (time_in (hh1 ++ hh2 ++ hh3) <= 120 * second)%N ->
  web_device_codes_apart (sv_ext S) hh ->
  (* a device asks for codes, for a client that may use the device flow *)
  In (HvStart d EDeviceAuthorize rd) hh1 -> In (HvDone d od) hh1 -> hq_method rd = "POST"%string ->
  comes_from S w hh d rd cd -> form_value rd "client_id" <> ""%string -> w_clients w (form_value rd "client_id") = Some cd' ->
  listed (sv_ext S) (cl_grant_types cd') "urn:ietf:params:oauth:grant-type:device_code" -> web_device_codes_work hh d ->
  exists device_code user_code, device_code <> ""%string /\ user_code <> ""%string /\
    od = Done (HDevice device_code user_code (sv_issuer S ++ "/device") 120 5) /\
    ((* then a user logs in and sends the user code, and nobody else does *)
     In (HvStart k EDevice rk) hh2 -> In (HvDone k ok) hh2 -> hq_method rk = "POST"%string ->
     hq_basic rk = Some ("hello", "world")%string -> post_value rk "user_code" = user_code ->
     (forall k' r' issuer, In (HvStart k' EDevice r') hh ->
        user_key (sv_ext S) issuer (post_value r' "user_code") = user_key (sv_ext S) (sv_issuer S) user_code -> k' = k) ->
     ok = Done HEmpty /\
     ((* then the device polls *)
      In (HvStart i EToken r) hh3 -> In (HvDone i o) hh3 -> comes_from S w hh i r c -> holds S w hh i r c cnf ->
      form_value r "grant_type" = "urn:ietf:params:oauth:grant-type:device_code"%string ->
      form_value r "device_code" = device_code -> cl_id c = form_value rd "client_id" -> web_generators_work hh i ->
      exists access expires refresh scope, o = Done (HToken access expires (type_sent cnf) refresh scope))).
Proof. exact C104_web_device_flow_partial_proof. Qed.
Print Assumptions C104_web_device_flow_partial.
Example C104_web_device_flow_partial_met : exists S w xs hh0 hh1 hh2 hh3 d rd cd cd' od k rk ok i r c cnf o,
  registry_ok w /\ blank w /\ hno_faults xs /\ w_stamp w = stamping 120 /\ sv_issuer S <> ""%string /\
  x_request_uri (sv_ext S) (sv_issuer S) = true /\
  http_history S w xs = (hh0 ++ hh1 ++ hh2 ++ hh3)%list /\ (time_in (hh1 ++ hh2 ++ hh3) <= 120 * second)%N /\
  web_device_codes_apart (sv_ext S) (http_history S w xs) /\
  In (HvStart d EDeviceAuthorize rd) hh1 /\ In (HvDone d od) hh1 /\ hq_method rd = "POST"%string /\
  comes_from S w (http_history S w xs) d rd cd /\ form_value rd "client_id" <> ""%string /\ w_clients w (form_value rd "client_id") = Some cd' /\
  listed (sv_ext S) (cl_grant_types cd') "urn:ietf:params:oauth:grant-type:device_code" /\ web_device_codes_work (http_history S w xs) d /\
  In (HvStart k EDevice rk) hh2 /\ In (HvDone k ok) hh2 /\ hq_method rk = "POST"%string /\
  hq_basic rk = Some ("hello", "world")%string /\ post_value rk "user_code" = "user-code"%string /\
  (forall k' r' issuer, In (HvStart k' EDevice r') (http_history S w xs) ->
     user_key (sv_ext S) issuer (post_value r' "user_code") = user_key (sv_ext S) (sv_issuer S) "user-code" -> k' = k) /\
  In (HvStart i EToken r) hh3 /\ In (HvDone i o) hh3 /\ comes_from S w (http_history S w xs) i r c /\ holds S w (http_history S w xs) i r c cnf /\
  form_value r "grant_type" = "urn:ietf:params:oauth:grant-type:device_code"%string /\
  form_value r "device_code" = "device-code"%string /\ cl_id c = form_value rd "client_id" /\ web_generators_work (http_history S w xs) i.
Proof.
  exists web_server, web_worlds, x_web_device, (firstn 0 h_device), (firstn 8 (skipn 0 h_device)), (firstn 6 (skipn 8 h_device)), (skipn 14 h_device), 0%nat, device_scope_r, (happ true), (happ true).
  eexists. exists 1%nat, approve_r. eexists. exists 2%nat, (poll_r dpop1), (happ true). do 2 eexists.
  split; [apply registry_webs|]. split; [apply blank_webs|]. split; [by_faults|]. split; [reflexivity|]. split; [discriminate|]. split; [reflexivity|].
  split; [vm_compute; reflexivity|]. split; [vm_compute; discriminate|].
  split; [apply (device_one_demo _ _ 0%nat); vm_compute; reflexivity|]. split; [by_start 0%nat|]. split; [by_nth 7%nat|]. split; [reflexivity|].
  split; [apply (from_app true); [reflexivity|reflexivity|left; split; [reflexivity|vm_compute; discriminate]]|].
  split; [discriminate|]. split; [reflexivity|]. split; [apply has_iff; reflexivity|]. split; [apply device_codes_demo; vm_compute; reflexivity|].
  split; [by_start 0%nat|]. split; [by_nth 5%nat|]. split; [reflexivity|]. split; [reflexivity|]. split; [reflexivity|].
  split. { intros j r' i' H _. apply Nat.eqb_eq.
    exact (starts_demo (fun j e _ => match e with EDevice => Nat.eqb j 1 | _ => true end) h_device ltac:(vm_compute; reflexivity) _ _ _ H). }
  split; [by_start 0%nat|]. split; [by_nth 19%nat|].
  split; [apply (from_app true); [reflexivity|reflexivity|left; split; [reflexivity|vm_compute; discriminate]]|].
  split. { right. split; [reflexivity|]. exists "thumb:instance-key"%string. split; [|reflexivity].
    exists "jti-3"%string, 1000%N, EToken, [], h_device. split; [exact (proof_good "proof" "jti-3" "/token" (or_introl eq_refl))|].
    split; [vm_compute; reflexivity|]. split; [by_start 14%nat|]. split; [vm_compute; discriminate|]. split; [vm_compute; discriminate|]. split; [reflexivity|].
    intros j a H. apply Nat.eqb_eq. exact (proofs_demo (fun j _ => Nat.eqb j 2) h_device ltac:(vm_compute; reflexivity) _ _ _ H). }
  split; [reflexivity|]. split; [reflexivity|]. split; [reflexivity|].
  apply generators_demo; vm_compute; reflexivity.
Qed.

Theorem C104_web_device_flow_refuted : forall S w xs,
  let hh := http_history S w xs in
  blank w -> (forall t s, w_stamp w t s = s) ->
  (forall i r, ~ responded hh i EDevice r HEmpty) /\
  (forall i r access expires type refresh scope, responded hh i EToken r (HToken access expires type refresh scope) ->
     form_value r "grant_type" <> "urn:ietf:params:oauth:grant-type:device_code"%string).
Proof. exact C104_web_device_flow_refuted_proof. Qed.
Print Assumptions C104_web_device_flow_refuted.
Example C104_web_device_flow_refuted_met : exists S w xs i r o,
  blank w /\ (forall t s, w_stamp w t s = s) /\
  In (HvStart i EDevice r) (http_history S w xs) /\ In (HvDone i o) (http_history S w xs) /\ hq_method r = "POST"%string /\
  user_logged_in r "hello" /\ post_value r "user_code" = "user-code"%string /\
  (exists d rd dc uri expires interval, responded (http_history S w xs) d EDeviceAuthorize rd (HDevice dc "user-code" uri expires interval)).
Proof.
  exists web_server, (web_world true), x_web_device, 1%nat, approve_r. eexists.
  split; [repeat split; reflexivity|]. split; [reflexivity|].
  split; [by_start 8%nat|]. split; [by_nth 11%nat|]. split; [reflexivity|]. split; [split; reflexivity|]. split; [reflexivity|].
  exists 0%nat, device_scope_r. do 4 eexists. split; [by_start 0%nat|by_nth 7%nat].
Qed.
