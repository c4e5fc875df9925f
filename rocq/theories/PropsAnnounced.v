(** * What the metadata announces: the theorems

    Written by tools/gen_props.py: the statements are those of the lemmas proved in
    PfAnnounced.
    Below each theorem, a concrete case that meets its hypotheses. *)

From Verif Require Import MeetAnnounced.

(** ** C118 The server supports what its metadata announces, and nothing else *)

Theorem C118_grant_types : forall S w xs i r,
  got_tokens (http_history S w xs) i r -> In (form_value r "grant_type") announced_grant_types.
Proof. exact C118_grant_types_proof. Qed.
Print Assumptions C118_grant_types.
Example C118_grant_types_met : exists S w xs i r, registry_ok w /\ blank w /\ got_tokens (http_history S w xs) i r.
Proof.
  exists web_server, (web_world true), x_http_code, 1%nat, (redeem_r dpop1).
  split; [apply registry_web|]. split; [apply blank_web|]. exact code_answer.
Qed.

Theorem C118_exchange_refuted : In "urn:ietf:params:oauth:grant-type:token-exchange"%string announced_grant_types /\
  forall S w xs i r, let hh := http_history S w xs in
    In (HvStart i EToken r) hh ->
    form_value r "grant_type" = "urn:ietf:params:oauth:grant-type:token-exchange"%string ->
    ~ got_tokens hh i r /\ forall iss t a, ~ In (HvCall i (CTokCreate iss t) a) hh.
Proof. exact C118_exchange_refuted_proof. Qed.
Print Assumptions C118_exchange_refuted.
Example C118_exchange_refuted_met : exists S w xs i r,
  responded (http_history S w xs) i EToken r (HError 400 (err invalid_grant)) /\
  form_value r "grant_type" = "urn:ietf:params:oauth:grant-type:token-exchange"%string.
Proof. do 5 eexists. split; [exact exchange_refused|reflexivity]. Qed.

Theorem C118_dpop_refuted : forall S w xs i e r alg, let hh := http_history S w xs in
  parses_es384_only (sv_ext S) alg -> e = EToken \/ e = EPar -> In (HvStart i e r) hh ->
  hq_header r "DPoP" <> ""%string -> In (alg (hq_header r "DPoP")) announced_dpop_algs ->
  (forall resp, responded hh i e r resp -> ~ fulfilled resp) /\
  (forall iss t a, ~ In (HvCall i (CTokCreate iss t) a) hh) /\
  (forall iss uri ar a, ~ In (HvCall i (CReqReg iss uri ar) a) hh).
Proof. exact C118_dpop_refuted_proof. Qed.
Print Assumptions C118_dpop_refuted.
Example C118_dpop_refuted_met : exists S w xs i r alg,
  parses_es384_only (sv_ext S) alg /\ responded (http_history S w xs) i EToken r (HError 400 (err invalid_dpop_proof)) /\
  hq_header r "DPoP" <> ""%string /\ In (alg (hq_header r "DPoP")) announced_dpop_algs.
Proof.
  do 5 eexists. exists demo_alg. split; [exact demo_es384|]. split; [exact es256_refused|].
  split; [discriminate|left; reflexivity].
Qed.

Theorem C118_request_objects : forall S w xs i e r resp alg,
  parses_es384_only (sv_ext S) alg -> e = EAuthorize \/ e = EPar ->
  responded (http_history S w xs) i e r resp -> fulfilled resp ->
  In (alg (query_get r "request")) announced_request_algs.
Proof. exact C118_request_objects_proof. Qed.
Print Assumptions C118_request_objects.
Example C118_request_objects_met : exists S w xs i r resp alg,
  parses_es384_only (sv_ext S) alg /\ responded (http_history S w xs) i EAuthorize r resp /\ fulfilled resp.
Proof.
  destruct authorize_answer as (resp & H & Hok). do 6 eexists. exists demo_alg. split; [exact demo_es384|]. split; [exact H|exact Hok].
Qed.

Theorem C118_challenge_methods : forall S w xs i iss ar a, let hh := http_history S w xs in
  (forall code s, In (HvCall i (CSessReg iss code s) a) hh -> as_request s = Some ar ->
     In (ar_code_challenge_method ar) announced_challenge_methods) /\
  (forall uri, In (HvCall i (CReqReg iss uri ar) a) hh ->
     In (ar_code_challenge_method ar) announced_challenge_methods).
Proof. exact C118_challenge_methods_proof. Qed.
Print Assumptions C118_challenge_methods.
Example C118_challenge_methods_met : exists S w xs i iss code s a ar,
  In (HvCall i (CSessReg iss code s) a) (http_history S w xs) /\ as_request s = Some ar.
Proof.
  destruct authorize_stores as (iss & code & s & a & ar & H & Hq). do 4 eexists. exists iss, code, s, a, ar. split; [exact H|exact Hq].
Qed.

Theorem C118_auth_methods : forall S w xs i e r resp,
  for_clients e -> responded (http_history S w xs) i e r resp -> fulfilled resp ->
  exists m, auth_method r = Some m /\
    (In m announced_auth_methods \/
     m = "none"%string /\ exists c, w_clients w (query_get r "client_id") = Some c /\ cl_type c = CtPublic).
Proof. exact C118_auth_methods_proof. Qed.
Print Assumptions C118_auth_methods.
Example C118_auth_methods_met : exists S w xs i e r resp,
  for_clients e /\ responded (http_history S w xs) i e r resp /\ fulfilled resp.
Proof.
  destruct code_answer as (a & n & t & f & s & H). do 7 eexists. split; [|split; [exact H|exact I]]. exact I.
Qed.

Theorem C118_subjects_refuted : forall S w xs i e r c iss code s a, let hh := http_history S w xs in
  w_clients w (query_get r "client_id") = Some c -> ~ In (cl_subject_type c) announced_subject_types ->
  In (HvStart i e r) hh -> In (HvCall i (CSessReg iss code s) a) hh ->
  logs_in r (as_subject s).
Proof. exact C118_subjects_refuted_proof. Qed.
Print Assumptions C118_subjects_refuted.
Example C118_subjects_refuted_met : exists S w xs i e r c iss code s a,
  registry_ok w /\ blank w /\ w_clients w (query_get r "client_id") = Some c /\ ~ In (cl_subject_type c) announced_subject_types /\
  In (HvStart i e r) (http_history S w xs) /\ In (HvCall i (CSessReg iss code s) a) (http_history S w xs).
Proof.
  destruct evil_stores as (iss & code & s & a & H).
  exists web_server, (web_world true), x_http_evil, 0%nat, EAuthorize, (authorize_r "evil" "req-evil"), hevil, iss, code, s, a.
  split; [apply registry_web|]. split; [apply blank_web|]. split; [reflexivity|]. split; [intros [X|[]]; discriminate X|].
  split; [eapply nth_error_In with (n := 0%nat); vm_compute; reflexivity|exact H].
Qed.

Theorem C118_auth_methods_refuted : exists S w xs i e r resp m,
  registry_ok w /\ blank w /\ for_clients e /\ responded (http_history S w xs) i e r resp /\ fulfilled resp /\
  auth_method r = Some m /\ ~ In m announced_auth_methods.
Proof. exact C118_auth_methods_refuted_proof. Qed.
Print Assumptions C118_auth_methods_refuted.
(* The theorem is itself a concrete case. *)

Theorem C118_response_types_refuted : exists S w xs i r resp iss code s a ar,
  let hh := http_history S w xs in
  registry_ok w /\ blank w /\ responded hh i EAuthorize r resp /\ fulfilled resp /\
  In (HvCall i (CSessReg iss code s) a) hh /\ ans_ok a = true /\ as_request s = Some ar /\
  ~ In (ar_response_type ar) announced_response_types.
Proof. exact C118_response_types_refuted_proof. Qed.
Print Assumptions C118_response_types_refuted.
(* The theorem is itself a concrete case. *)
