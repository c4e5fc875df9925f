(** * Attested clients: the theorems

    Written by tools/gen_props.py: the statements are those of the lemmas proved in
    PfAttest.
    Below each theorem, a concrete case that meets its hypotheses. *)

From Verif Require Import MeetAttest.

(** ** C106 A client attested by the attestation server of the examples gets a token *)

Theorem C106_attestation_valid : forall E w public asign csign akey ckey data at_ pt att jti pop c from until,
  attester_signs E akey asign -> attester_registered E w akey -> pop_signs E (public ckey) csign -> accepts_both E asign csign ->
  (* the attestation server attests the key, and the client makes a proof with it *)
  get_attestation (sign_handler public asign (Some data) at_) = Some att -> att <> ""%string ->
  ad_public_key data = Some ckey -> ad_client_id data <> ""%string ->
  client_pop csign jti pt = Some pop -> jti <> ""%string -> w_clients w "attestation-client" = Some c ->
  (unix at_ - 1 <= from)%N -> (until <= unix at_ + 3600)%N -> (unix pt - 1 <= from)%N -> (until <= unix pt + 30)%N ->
  attested_by E w (att ++ "~" ++ pop) c from until.
Proof. exact C106_attestation_valid_proof. Qed.
Print Assumptions C106_attestation_valid.
Example C106_attestation_valid_met : exists E w (public : jwk -> jwk) asign csign akey ckey data at_ pt att jti pop c from until,
  attester_signs E akey asign /\ attester_registered E w akey /\ pop_signs E (public ckey) csign /\ accepts_both E asign csign /\
  get_attestation (sign_handler public asign (Some data) at_) = Some att /\ att <> ""%string /\
  ad_public_key data = Some ckey /\ ad_client_id data <> ""%string /\
  client_pop csign jti pt = Some pop /\ jti <> ""%string /\ w_clients w "attestation-client" = Some c /\
  (unix at_ - 1 <= from)%N /\ (until <= unix at_ + 3600)%N /\ (unix pt - 1 <= from)%N /\ (until <= unix pt + 30)%N.
Proof.
  exists (att_ext true), att_world, (fun k => k), att_sign, pop_sign, att_key, dev_key, att_data, (1000 * second)%N, (1000 * second)%N,
    "example-att"%string, "jti-20"%string, "example-pop"%string, att_client, 1000%N, 1030%N.
  split; [apply att_signs|]. split; [apply att_registered|]. split; [apply pop_signed|]. split; [apply att_accepts|].
  split; [vm_compute; reflexivity|]. split; [discriminate|]. split; [reflexivity|]. split; [discriminate|].
  split; [vm_compute; reflexivity|]. split; [discriminate|]. split; [reflexivity|]. repeat split; vm_compute; discriminate.
Qed.

Theorem C106_attested_token_partial : forall S w xs hh0 hh1 i public asign csign akey ckey data at_ pt att jti pop c tls host path o,
  let hh := http_history S w xs in
  hno_faults xs -> hh = (hh0 ++ hh1)%list ->
  (* the server accepts the algorithms of both programs *)
  attester_signs (sv_ext S) akey asign -> attester_registered (sv_ext S) w akey ->
  pop_signs (sv_ext S) (public ckey) csign -> accepts_both (sv_ext S) asign csign ->
  (* the attestation server attests the key, and the client makes a proof with it *)
  get_attestation (sign_handler public asign (Some data) at_) = Some att -> att <> ""%string ->
  ad_public_key data = Some ckey -> ad_client_id data <> ""%string -> client_pop csign jti pt = Some pop -> jti <> ""%string ->
  (* the clocks agree up to a second, and the request is served within half a minute *)
  (unix at_ - 1 <= unix (w_now w + time_in hh0))%N -> (unix (w_now w + time_in hh) <= unix at_ + 3600)%N ->
  (unix pt - 1 <= unix (w_now w + time_in hh0))%N -> (unix (w_now w + time_in hh) <= unix pt + 30)%N ->
  In (HvStart i EToken (attested_request tls host path att pop)) hh1 -> In (HvDone i o) hh ->
  (* the client may use the grant *)
  registry_ok w -> w_clients w "attestation-client" = Some c ->
  (cl_type c = CtConfidential \/ cl_type c = CtCredentialed) -> cl_dpop_bound c = false ->
  listed (sv_ext S) (cl_grant_types c) "client_credentials" ->
  sv_issuer S <> ""%string -> x_request_uri (sv_ext S) (sv_issuer S) = true -> web_generators_work hh i ->
  exists resp access, o = Done resp /\ attested_result resp = Some access /\ access <> ""%string /\ token_for hh i access c.
Proof. exact C106_attested_token_partial_proof. Qed.
Print Assumptions C106_attested_token_partial.
Example C106_attested_token_partial_met : exists S w xs hh0 hh1 i (public : jwk -> jwk) asign csign akey ckey data at_ pt att jti pop c tls host path o,
  hno_faults xs /\ http_history S w xs = (hh0 ++ hh1)%list /\
  attester_signs (sv_ext S) akey asign /\ attester_registered (sv_ext S) w akey /\
  pop_signs (sv_ext S) (public ckey) csign /\ accepts_both (sv_ext S) asign csign /\
  get_attestation (sign_handler public asign (Some data) at_) = Some att /\ att <> ""%string /\
  ad_public_key data = Some ckey /\ ad_client_id data <> ""%string /\ client_pop csign jti pt = Some pop /\ jti <> ""%string /\
  (unix at_ - 1 <= unix (w_now w + time_in hh0))%N /\ (unix (w_now w + time_in (http_history S w xs)) <= unix at_ + 3600)%N /\
  (unix pt - 1 <= unix (w_now w + time_in hh0))%N /\ (unix (w_now w + time_in (http_history S w xs)) <= unix pt + 30)%N /\
  In (HvStart i EToken (attested_request tls host path att pop)) hh1 /\ In (HvDone i o) (http_history S w xs) /\
  registry_ok w /\ w_clients w "attestation-client" = Some c /\ cl_type c = CtCredentialed /\ cl_dpop_bound c = false /\
  listed (sv_ext S) (cl_grant_types c) "client_credentials" /\
  sv_issuer S <> ""%string /\ x_request_uri (sv_ext S) (sv_issuer S) = true /\ web_generators_work (http_history S w xs) i.
Proof.
  exists (att_server true), att_world, (x_attested att_r), [HvTick (2 * second)],
    (tl (http_history (att_server true) att_world (x_attested att_r))), 0%nat, (fun k => k), att_sign, pop_sign, att_key, dev_key, att_data,
    (1000 * second)%N, (1001 * second - 1)%N, "example-att"%string, "jti-20"%string, "example-pop"%string, att_client, true, "as.example"%string, "/token"%string.
  eexists. split; [by_faults|]. split; [vm_compute; reflexivity|].
  split; [apply att_signs|]. split; [apply att_registered|]. split; [apply pop_signed|]. split; [apply att_accepts|].
  split; [vm_compute; reflexivity|]. split; [discriminate|]. split; [reflexivity|]. split; [discriminate|].
  split; [vm_compute; reflexivity|]. split; [discriminate|]. do 4 (split; [vm_compute; discriminate|]).
  split; [by_start 0%nat|]. split; [by_nth 14%nat|]. split; [apply registry_att|]. split; [reflexivity|]. split; [reflexivity|]. split; [reflexivity|].
  split; [apply has_iff; reflexivity|]. split; [discriminate|]. split; [reflexivity|]. apply generators_demo. vm_compute. reflexivity.
Qed.

Theorem C106_example_refuted : forall S w xs i public asign alg data at_ att pop tls host path o,
  let hh := http_history S w xs in
  accepts_ecdsa_only (sv_ext S) alg -> signs_eddsa alg asign ->
  (forall cl raw, asign cl = Some raw -> ~ In "~"%char (list_ascii_of_string raw)) ->
  get_attestation (sign_handler public asign data at_) = Some att -> att <> ""%string ->
  In (HvStart i EToken (attested_request tls host path att pop)) hh -> In (HvDone i o) hh ->
  o = Done (HError 401 (err invalid_client)).
Proof. exact C106_example_refuted_proof. Qed.
Print Assumptions C106_example_refuted.
Example C106_example_refuted_met : exists S w xs i (public : jwk -> jwk) asign alg data at_ att pop tls host path o,
  accepts_ecdsa_only (sv_ext S) alg /\ signs_eddsa alg asign /\
  (forall cl raw, asign cl = Some raw -> ~ In "~"%char (list_ascii_of_string raw)) /\
  get_attestation (sign_handler public asign data at_) = Some att /\ att <> ""%string /\
  In (HvStart i EToken (attested_request tls host path att pop)) (http_history S w xs) /\ In (HvDone i o) (http_history S w xs) /\
  (* with a registered attester and a good proof *)
  attester_signs (sv_ext S) att_key asign /\ attester_registered (sv_ext S) w att_key /\
  client_pop pop_sign "jti-20" (1000 * second) = Some pop /\ pop_signs (sv_ext S) dev_key pop_sign.
Proof.
  exists (att_server false), att_world, (x_attested att_r), 0%nat, (fun k => k), att_sign, att_alg, (Some att_data), (1000 * second)%N,
    "example-att"%string, "example-pop"%string, true, "as.example"%string, "/token"%string. eexists.
  split. { intros raw. cbn. unfold att_alg. destruct (String.eqb raw "example-att"); [discriminate|auto]. }
  split. { intros cl raw. unfold att_sign. destruct (claims_dec cl att_claims); [|discriminate]. intros [= <-]. reflexivity. }
  split. { intros cl raw H. apply (att_signs false) in H. apply H. }
  split; [vm_compute; reflexivity|]. split; [discriminate|]. split; [by_start 1%nat|]. split; [by_nth 2%nat|].
  split; [apply att_signs|]. split; [apply att_registered|]. split; [vm_compute; reflexivity|]. apply pop_signed.
Qed.

Theorem C106_any_client_refuted : forall S w xs hh0 hh1 i public asign csign akey ckey name at_ att pop cp c r o,
  let hh := http_history S w xs in
  hno_faults xs -> hh = (hh0 ++ hh1)%list ->
  attester_signs (sv_ext S) akey asign -> attester_registered (sv_ext S) w akey ->
  pop_signs (sv_ext S) (public ckey) csign -> accepts_both (sv_ext S) asign csign ->
  (* somebody has their key attested under any name *)
  get_attestation (sign_handler public asign (Some (mkAttData name (Some ckey))) at_) = Some att -> att <> ""%string -> name <> ""%string ->
  (* and signs a proof in the name of client [c] *)
  csign cp = Some pop -> w_clients w (c_iss cp) = Some c -> c_iss cp <> ""%string -> c_jti cp <> ""%string -> c_aud cp <> ""%string ->
  (unix at_ - 1 <= unix (w_now w + time_in hh0))%N -> (unix (w_now w + time_in hh) <= unix at_ + 3600)%N ->
  (c_nbf cp <= unix (w_now w + time_in hh0))%N -> (0 < c_exp cp)%N -> (unix (w_now w + time_in hh) <= c_exp cp)%N ->
  (* they ask for a token *)
  query_get r "client_id" = ""%string ->
  post_value r "client_assertion_type" = "urn:ietf:params:oauth:client-assertion-type:jwt-client-attestation"%string ->
  post_value r "client_assertion" = (att ++ "~" ++ pop)%string -> form_value r "grant_type" = "client_credentials"%string ->
  bearer r c ->
  In (HvStart i EToken r) hh1 -> In (HvDone i o) hh ->
  registry_ok w -> (cl_type c = CtConfidential \/ cl_type c = CtCredentialed) ->
  listed (sv_ext S) (cl_grant_types c) "client_credentials" ->
  sv_issuer S <> ""%string -> x_request_uri (sv_ext S) (sv_issuer S) = true -> web_generators_work hh i ->
  (* they are given a token of [c] *)
  exists resp access, o = Done resp /\ attested_result resp = Some access /\ access <> ""%string /\ token_for hh i access c.
Proof. exact C106_any_client_refuted_proof. Qed.
Print Assumptions C106_any_client_refuted.
Example C106_any_client_refuted_met : exists S w xs hh0 hh1 i (public : jwk -> jwk) asign csign akey ckey name at_ att pop cp c r o,
  hno_faults xs /\ http_history S w xs = (hh0 ++ hh1)%list /\
  attester_signs (sv_ext S) akey asign /\ attester_registered (sv_ext S) w akey /\
  pop_signs (sv_ext S) (public ckey) csign /\ accepts_both (sv_ext S) asign csign /\
  get_attestation (sign_handler public asign (Some (mkAttData name (Some ckey))) at_) = Some att /\ att <> ""%string /\ name <> ""%string /\
  csign cp = Some pop /\ w_clients w (c_iss cp) = Some c /\ c_iss cp <> ""%string /\ c_jti cp <> ""%string /\ c_aud cp <> ""%string /\
  (unix at_ - 1 <= unix (w_now w + time_in hh0))%N /\ (unix (w_now w + time_in (http_history S w xs)) <= unix at_ + 3600)%N /\
  (c_nbf cp <= unix (w_now w + time_in hh0))%N /\ (0 < c_exp cp)%N /\ (unix (w_now w + time_in (http_history S w xs)) <= c_exp cp)%N /\
  query_get r "client_id" = ""%string /\
  post_value r "client_assertion_type" = "urn:ietf:params:oauth:client-assertion-type:jwt-client-attestation"%string /\
  post_value r "client_assertion" = (att ++ "~" ++ pop)%string /\ form_value r "grant_type" = "client_credentials"%string /\
  bearer r c /\
  In (HvStart i EToken r) hh1 /\ In (HvDone i o) (http_history S w xs) /\
  registry_ok w /\ cl_type c = CtConfidential /\
  listed (sv_ext S) (cl_grant_types c) "client_credentials" /\
  sv_issuer S <> ""%string /\ x_request_uri (sv_ext S) (sv_issuer S) = true /\ web_generators_work (http_history S w xs) i /\
  (* the client has keys of its own and another name *)
  name <> cl_id c /\ cl_jwks c <> ""%string.
Proof.
  exists (att_server true), att_world, (x_attested other_r), [HvTick (2 * second)],
    (tl (http_history (att_server true) att_world (x_attested other_r))), 0%nat, (fun k => k), att_sign, pop_sign, att_key, dev_key,
    "attestation-client"%string, (1000 * second)%N, "example-att"%string, "other-pop"%string, other_claims, (happ false), other_r.
  eexists. split; [by_faults|]. split; [vm_compute; reflexivity|].
  split; [apply att_signs|]. split; [apply att_registered|]. split; [apply pop_signed|]. split; [apply att_accepts|].
  split; [vm_compute; reflexivity|]. split; [discriminate|]. split; [discriminate|]. split; [vm_compute; reflexivity|].
  split; [reflexivity|]. do 3 (split; [discriminate|]). do 3 (split; [vm_compute; discriminate|]). split; [reflexivity|].
  split; [vm_compute; discriminate|]. do 4 (split; [reflexivity|]). split; [repeat split|].
  split; [by_start 0%nat|]. split; [by_nth 14%nat|]. split; [apply registry_att|]. split; [reflexivity|].
  split; [apply has_iff; reflexivity|]. split; [discriminate|]. split; [reflexivity|]. split; [apply generators_demo; vm_compute; reflexivity|].
  split; discriminate.
Qed.
