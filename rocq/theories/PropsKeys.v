(** * The keys of the server and the profile of its clients: the theorems

    Written by tools/gen_props.py: the statements are those of the lemmas proved in
    PfKeys.
    Below each theorem, a concrete case that meets its hypotheses. *)

From Verif Require Import MeetKeys.

(** ** C120 The key endpoint publishes the signing key and not its secret *)

Theorem C120_no_secret : forall sound doc k ks docs d v,
  started sound doc k ks -> jwks_handler (Some (Some ks)) = KeysSent docs -> In d docs ->
  ~ In ("d"%string, v) d.
Proof. exact C120_no_secret_proof. Qed.
Print Assumptions C120_no_secret.
Example C120_no_secret_met : exists sound doc k ks docs d,
  started sound doc k ks /\ jwks_handler (Some (Some ks)) = KeysSent docs /\ In d docs /\ ec_d k <> None.
Proof.
  exists knows, settings_doc, kk_key, [ec_public kk_key]. do 2 eexists.
  split; [exact kk_started|]. split; [reflexivity|]. split; [left; reflexivity|]. discriminate.
Qed.

Theorem C120_secret_unseen : forall sound doc doc' k k' ks ks',
  without "d" doc = without "d" doc' -> started sound doc k ks -> started sound doc' k' ks' ->
  jwks_handler (Some (Some ks)) = jwks_handler (Some (Some ks')).
Proof. exact C120_secret_unseen_proof. Qed.
Print Assumptions C120_secret_unseen.
Example C120_secret_unseen_met : exists sound doc doc' k k' ks ks',
  without "d" doc = without "d" doc' /\ started sound doc k ks /\ started sound doc' k' ks' /\ ec_d k <> ec_d k'.
Proof.
  exists knows, settings_doc, other_settings, kk_key. do 3 eexists.
  split; [vm_compute; reflexivity|]. split; [exact kk_started|]. split; [split; vm_compute; reflexivity|]. vm_compute. discriminate.
Qed.

Theorem C120_served_key : forall sound of_ec doc k ks,
  point_stays sound -> started sound doc k ks ->
  exists k', public_part k k' /\
    read_response sound of_ec (jwks_handler (Some (Some ks))) = JwksDoc (Some [of_ec k']) 0.
Proof. exact C120_served_key_proof. Qed.
Print Assumptions C120_served_key.
Example C120_served_key_met : exists sound doc k ks, point_stays sound /\ started sound doc k ks.
Proof. exists knows, settings_doc, kk_key, [ec_public kk_key]. split; [exact kk_stays|exact kk_started]. Qed.

Theorem C120_always_asked : forall sound of_ec doc k ks cs r,
  point_stays sound -> started sound doc k ks -> answered_by sound of_ec ks cs ->
  In r (run_keys fresh_client cs) -> exists k', public_part k k' /\ r = (KeysOk [of_ec k'] 0, true).
Proof. exact C120_always_asked_proof. Qed.
Print Assumptions C120_always_asked.
Example C120_always_asked_met : exists sound of_ec doc k ks cs r,
  point_stays sound /\ started sound doc k ks /\ answered_by sound of_ec ks cs /\ In r (run_keys fresh_client cs) /\
  List.length (run_keys fresh_client cs) = 2%nat.
Proof.
  exists knows, kk_of, settings_doc, kk_key, [ec_public kk_key], kk_calls. eexists.
  split; [exact kk_stays|]. split; [exact kk_started|]. split; [exact kk_answered|]. split; [right; left; reflexivity|reflexivity].
Qed.

Theorem C120_verifies : forall A E (dec : string -> option A) pub sign sound of_ec doc k ks cs keys exp asked typ c raw,
  jose_works E dec pub sign -> keeps of_ec pub -> point_stays sound ->
  started sound doc k ks -> ec_use k <> "enc"%string ->
  answered_by sound of_ec ks cs -> In (KeysOk keys exp, asked) (run_keys fresh_client cs) ->
  jwt_serialize sign typ false (Some (KKey (of_ec k))) c = Some raw ->
  verifier_claims E dec (Some keys) raw = Some c.
Proof. exact C120_verifies_proof. Qed.
Print Assumptions C120_verifies.
Example C120_verifies_met : exists E (dec : string -> option string) pub sign sound of_ec doc k ks cs keys exp asked typ c raw,
  jose_works E dec pub sign /\ keeps of_ec pub /\ point_stays sound /\
  started sound doc k ks /\ ec_use k <> "enc"%string /\
  answered_by sound of_ec ks cs /\ In (KeysOk keys exp, asked) (run_keys fresh_client cs) /\
  jwt_serialize sign typ false (Some (KKey (of_ec k))) c = Some raw.
Proof.
  exists kk_ext, kk_dec, kk_pub, kk_sign, knows, kk_of, settings_doc, kk_key, [ec_public kk_key], kk_calls. do 3 eexists.
  exists type_metadata, "metadata"%string, "signed"%string.
  split; [exact kk_works|]. split; [exact kk_keeps|]. split; [exact kk_stays|]. split; [exact kk_started|].
  split; [discriminate|]. split; [exact kk_answered|]. split; [right; left; reflexivity|]. vm_compute. reflexivity.
Qed.

Theorem C120_settings : forall sound, sound "P-384"%string (text_or "x" settings_doc) (text_or "y" settings_doc) (text_at "d" settings_doc) = true ->
  exists k ks, started sound settings_doc k ks /\ ec_d k <> None /\ ec_use k <> "enc"%string /\ ec_kid k <> ""%string /\
    ec_alg k = "ES384"%string.
Proof. exact C120_settings_proof. Qed.
Print Assumptions C120_settings.
Example C120_settings_met : exists sound : string -> string -> string -> option string -> bool,
  sound "P-384"%string (text_or "x" settings_doc) (text_or "y" settings_doc) (text_at "d" settings_doc) = true /\
  sound "P-256"%string (text_or "x" settings_doc) (text_or "y" settings_doc) (text_at "d" settings_doc) = false.
Proof. exists knows. split; reflexivity. Qed.

Theorem C120_failure : forall sound of_ec st c,
  pk_answer c = read_response sound of_ec (jwks_handler None) ->
  jwks_handler None = KeysFailed 500 /\
  let '(st', r, asked) := public_keys st c in
  st' = st /\ (asked = true -> r = KeysErr) /\ r <> KeysPanic.
Proof. exact C120_failure_proof. Qed.
Print Assumptions C120_failure.
Example C120_failure_met : exists sound of_ec st c,
  pk_answer c = read_response sound of_ec (jwks_handler None) /\ cs_jwks st <> None.
Proof. exists knows, kk_of, (mkClientState (Some [kk_of kk_key]) 0), (mkKeysCall 1000 JwksFails 1000). split; [reflexivity|discriminate]. Qed.

Theorem C120_nil_set_refuted : forall sound of_ec c,
  pk_answer c = read_response sound of_ec (jwks_handler (Some None)) ->
  snd (fst (public_keys fresh_client c)) = KeysPanic.
Proof. exact C120_nil_set_refuted_proof. Qed.
Print Assumptions C120_nil_set_refuted.
Example C120_nil_set_refuted_met : exists sound of_ec c, pk_answer c = read_response sound of_ec (jwks_handler (Some None)).
Proof. exists knows, kk_of, (mkKeysCall 1000 (JwksDoc None 0) 1000). reflexivity. Qed.

Theorem C120_any_provider_refuted : forall k d, ec_d k = Some d ->
  exists doc, jwks_handler (Some (Some [k])) = KeysSent [doc] /\ In ("d"%string, JsStr d) doc.
Proof. exact C120_any_provider_refuted_proof. Qed.
Print Assumptions C120_any_provider_refuted.
Example C120_any_provider_refuted_met : exists k d, ec_d k = Some d.
Proof. exists kk_key. eexists. vm_compute. reflexivity. Qed.

(** ** C121 Clients registered with the strict profile stay within it *)

Theorem C121_profiles : forall name p, strict_profile name = Some p ->
  In name ["web"; "native"; "device"; "service"]%string /\
  (forall g, In g (pr_grants p) -> In g announced_grant_types) /\
  (forall m, In m (pr_auth p) -> In m announced_auth_methods) /\
  pr_grants p <> [] /\ pr_auth p <> [] /\ pr_responses p <> [].
Proof. exact C121_profiles_proof. Qed.
Print Assumptions C121_profiles.
Example C121_profiles_met : exists p, strict_profile "device" = Some p.
Proof. eexists. reflexivity. Qed.

Theorem C121_purposes : forall name p, strict_profile name = Some p ->
  (In "authorization_code" (pr_grants p) <-> name = "web" \/ name = "native")%string /\
  (In "refresh_token" (pr_grants p) <-> name = "native" \/ name = "device")%string /\
  (In "urn:ietf:params:oauth:grant-type:device_code" (pr_grants p) <-> name = "device")%string /\
  (In "client_credentials" (pr_grants p) <-> name = "service")%string.
Proof. exact C121_purposes_proof. Qed.
Print Assumptions C121_purposes.
Example C121_purposes_met : exists p, strict_profile "native" = Some p.
Proof. eexists. reflexivity. Qed.

Theorem C121_response_types_refuted : exists p r, strict_profile "service" = Some p /\ In r (pr_responses p) /\ ~ In r announced_response_types.
Proof. exact C121_response_types_refuted_proof. Qed.
Print Assumptions C121_response_types_refuted.
(* The theorem is itself a concrete case. *)

Theorem C121_grants : forall E w xs i iss t a name m c p,
  registry_ok w -> names_apart E -> In (EvCall i (CTokCreate iss t) a) (history E w xs) ->
  t_meta t = Some m -> w_clients w (m_client_id m) = Some c ->
  strictly_registered name c -> strict_profile name = Some p ->
  exists req, In (EvStart i (RToken (Some req))) (history E w xs) /\ In (tq_grant_type req) (pr_grants p).
Proof. exact C121_grants_proof. Qed.
Print Assumptions C121_grants.
Example C121_grants_met : exists E w xs i iss t a name m c p,
  registry_ok w /\ names_apart E /\ In (EvCall i (CTokCreate iss t) a) (history E w xs) /\
  t_meta t = Some m /\ w_clients w (m_client_id m) = Some c /\
  strictly_registered name c /\ strict_profile name = Some p.
Proof.
  exists demo_ext, (strict_world "web"), x_code, 1%nat, iss. do 2 eexists. exists "web"%string. eexists. exists (strict_client "web"). eexists.
  split; [apply strict_registry|]. split; [exact demo_apart|].
  split; [eapply nth_error_In with (n := 12%nat); vm_compute; reflexivity|].
  split; [reflexivity|]. split; [reflexivity|]. split; [eexists; repeat split; reflexivity|reflexivity].
Qed.

Theorem C121_codes : forall E w xs i q res name c,
  names_apart E -> authorize_ok_at (history E w xs) i q res ->
  w_clients w (zr_client_id res) = Some c -> strictly_registered name c ->
  (name = "web" \/ name = "native")%string /\
  exists eff, effective (history E w xs) i q eff /\ ar_response_type eff = "code"%string.
Proof. exact C121_codes_proof. Qed.
Print Assumptions C121_codes.
Example C121_codes_met : exists E w xs i q res name c,
  names_apart E /\ authorize_ok_at (history E w xs) i q res /\
  w_clients w (zr_client_id res) = Some c /\ strictly_registered name c.
Proof.
  exists demo_ext, (strict_world "web"), x_code, 0%nat, (mkAuthzReq iss "alice" (Some (areq all_scope (Some "consent"%string)))).
  eexists. exists "web"%string, (strict_client "web").
  split; [exact demo_apart|]. split; [demo_authz|]. split; [reflexivity|]. eexists; repeat split; reflexivity.
Qed.

Theorem C121_no_refresh : forall E w xs i req res name c,
  registry_ok w -> names_apart E -> token_ok (history E w xs) i req res -> client_of w req c ->
  strictly_registered name c ->
  tq_grant_type req = "refresh_token"%string -> (name = "native" \/ name = "device")%string.
Proof. exact C121_no_refresh_proof. Qed.
Print Assumptions C121_no_refresh.
Example C121_no_refresh_met : exists E w xs i req res name c,
  registry_ok w /\ names_apart E /\ token_ok (history E w xs) i req res /\ client_of w req c /\
  strictly_registered name c /\ tq_grant_type req = "refresh_token"%string.
Proof.
  exists demo_ext, (strict_world "native"), x_refresh, 2%nat, (refreshreq webapp "rt-1"). eexists. exists "native"%string, (strict_client "native").
  split; [apply strict_registry_native|]. split; [exact demo_apart|]. split; [demo_ok|].
  split; [exists webapp; split; reflexivity|]. split; [eexists; repeat split; reflexivity|reflexivity].
Qed.

Theorem C121_web_refresh_refuted : exists E w xs i req res c,
  registry_ok w /\ names_apart E /\ token_ok (history E w xs) i req res /\ client_of w req c /\ strictly_registered "web" c /\
  tr_rt res <> None.
Proof. exact C121_web_refresh_refuted_proof. Qed.
Print Assumptions C121_web_refresh_refuted.
(* The theorem is itself a concrete case. *)
