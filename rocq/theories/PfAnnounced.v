(** * What the metadata announces (proofs) *)

From Verif Require Export SpecAnnounced PfAttest DemoHttp.
From Coq Require Import Lia.

(** A request to an endpoint for clients that is served has passed the authentication. *)
Lemma served_passed S w xs i e r resp next : responded (http_history S w xs) i e r resp -> fulfilled resp ->
  answer_http S e r = client_authentication (sv_ext S) next r ->
  exists client tr1 tr2, hcalls i (http_history S w xs) = (tr1 ++ tr2)%list /\ runs (next client) tr2 (Done resp) /\
    ((exists c, client = Some c /\ query_get r "client_id" <> ""%string /\ cl_type c = CtPublic /\
        tr1 = [(CClientGet (query_get r "client_id"), AClient (SOk c))]) \/
     (query_get r "client_id" = ""%string /\
      (post_value r "client_assertion_type" = assertion_bearer \/
       post_value r "client_assertion_type" = assertion_attestation))).
Proof.
  intros [Hs Hd] Hok Ha. destruct (http_started _ _ _ _ _ _ Hs) as (_ & Hr & _). specialize (Hr _ Hd). rewrite Ha in Hr.
  apply C58_authenticated_clients_proof in Hr as [(e' & -> & _)|(cl & t1 & t2 & -> & Hr & D)]; [destruct Hok|].
  exists cl, t1, t2. split; [reflexivity|]. split; [exact Hr|].
  destruct D as [D|(Hq & _ & res & _ & _ & D)]; [left; exact D|right].
  split; [exact Hq|]. cbv zeta in D. destruct D as [[D _]|[D _]]; auto.
Qed.
Lemma for_clients_auth S e r : for_clients e -> exists next, answer_http S e r = client_authentication (sv_ext S) next r.
Proof. intros H. destruct e; try destruct H; unfold answer_http, serve_http; eexists; reflexivity. Qed.

(** ** Grant types *)

Lemma message_announced E issuer r c cnf tr res : reach (token_svc E (Some (token_message issuer r c cnf))) tr (Ret res) ->
  tr_err res = false -> In (form_value r "grant_type") announced_grant_types /\
    form_value r "grant_type" <> gt_exchange.
Proof.
  unfold token_svc. intros H Hok. destruct (validate_request _) as [e|] eqn:V; [rstep H; subst; discriminate|]. clear H.
  unfold validate_request in V. cbn [tq_issuer tq_client tq_grant_type token_message] in V.
  destruct (is_empty issuer); [discriminate|].
  destruct (grant_matches _ _) eqn:G; [clear V|discriminate]. unfold grant_matches, token_message in G. cbn [tq_grant] in G.
  destruct (String.eqb_spec (form_value r "grant_type") gt_code) as [->|H1]; [split; [cbn; auto|discriminate]|].
  destruct (String.eqb_spec (form_value r "grant_type") gt_cc) as [->|H2]; [split; [cbn; auto|discriminate]|].
  destruct (String.eqb_spec (form_value r "grant_type") gt_device) as [->|H3]; [split; [cbn; auto 6|discriminate]|].
  destruct (String.eqb_spec (form_value r "grant_type") gt_refresh) as [->|H4]; [split; [cbn; auto|discriminate]|].
  exfalso. destruct (String.eqb _ _); discriminate G.
Qed.
Lemma got_announced S w xs i r : got_tokens (http_history S w xs) i r ->
  In (form_value r "grant_type") announced_grant_types /\ form_value r "grant_type" <> gt_exchange.
Proof.
  intros (ac & ex & ty & rf & sc & H). destruct (served_passed _ _ _ _ _ _ _ _ H I eq_refl) as (cl & t1 & t2 & _ & Hr & _).
  destruct cl as [c|].
  - apply token_handler_done in Hr as (cnf & u1 & u2 & u3 & res & at_ & m & tm & _ & _ & Hr & Hok & _).
    eapply message_announced; eauto.
  - exfalso. cbn [runs] in Hr. unfold token_handler in Hr.
    destruct (negb _); apply with_error_ret in Hr as (_ & e & _ & Hr); discriminate.
Qed.

Lemma C118_grant_types_proof : forall S w xs i r,
  got_tokens (http_history S w xs) i r -> In (form_value r "grant_type") announced_grant_types.
Proof. intros S w xs i r H. apply (got_announced _ _ _ _ _ H). Qed.

Lemma exchange_message E issuer r c cnf : form_value r "grant_type" = gt_exchange ->
  exists e, token_svc E (Some (token_message issuer r c cnf)) = Ret (tfail e).
Proof.
  intros H. unfold token_svc, validate_request. cbn [tq_issuer tq_client tq_grant_type tq_grant token_message].
  destruct (is_empty issuer); [eexists; reflexivity|]. rewrite H. eexists. reflexivity.
Qed.

Lemma C118_exchange_refuted_proof :
  In "urn:ietf:params:oauth:grant-type:token-exchange"%string announced_grant_types /\
  forall S w xs i r, let hh := http_history S w xs in
    In (HvStart i EToken r) hh ->
    form_value r "grant_type" = "urn:ietf:params:oauth:grant-type:token-exchange"%string ->
    ~ got_tokens hh i r /\ forall iss t a, ~ In (HvCall i (CTokCreate iss t) a) hh.
Proof.
  split; [cbn; auto 7|]. intros S w xs i r hh Hs Hg. split.
  - intros H. apply (proj2 (got_announced _ _ _ _ _ H)). exact Hg.
  - intros iss t a Hin. destruct (http_started _ _ _ _ _ _ Hs) as ((q & Hr) & _). apply in_hcalls in Hin.
    destruct (serve_http_create _ _ _ _ _ _ _ _ Hr Hin) as (_ & id & c & t1 & t2 & _ & _ & Hr2 & Hi).
    refine ((_ : never (CTokCreate iss t) _) _ _ _ Hr2 Hi). unfold token_handler.
    assert (N : forall cnf, never (CTokCreate iss t) (token_svc (sv_ext S) (Some (token_message (sv_issuer S) r c cnf)))).
    { intros cnf. destruct (exchange_message (sv_ext S) (sv_issuer S) r c cnf Hg) as (e & ->). apply never_ret. }
    unfold Http.token_answer. never_tac; auto. never_svc.
Qed.

(** ** Algorithms *)

Lemma proof_alg E alg htm htu proof tv tc : parses_es384_only E alg -> alg proof <> "ES384"%string ->
  dpop_verify E htm htu proof tv tc = Ret None.
Proof.
  intros Hp Ha. unfold dpop_verify. destruct (_ || _); [reflexivity|]. destruct (negb _); [reflexivity|].
  destruct (negb _); [reflexivity|]. destruct (x_parse E proof) as [t|] eqn:P; [|reflexivity].
  exfalso. exact (Ha (Hp _ _ P)).
Qed.

Lemma C118_dpop_refuted_proof : forall S w xs i e r alg, let hh := http_history S w xs in
  parses_es384_only (sv_ext S) alg -> e = EToken \/ e = EPar -> In (HvStart i e r) hh ->
  hq_header r "DPoP" <> ""%string -> In (alg (hq_header r "DPoP")) announced_dpop_algs ->
  (forall resp, responded hh i e r resp -> ~ fulfilled resp) /\
  (forall iss t a, ~ In (HvCall i (CTokCreate iss t) a) hh) /\
  (forall iss uri ar a, ~ In (HvCall i (CReqReg iss uri ar) a) hh).
Proof.
  intros S w xs i e r alg hh Hp He Hs Hne Ha.
  assert (Ha' : alg (hq_header r "DPoP") <> "ES384"%string) by (destruct Ha as [<-|[]]; discriminate).
  assert (Hem : is_empty (hq_header r "DPoP") = false) by (apply is_empty_false; exact Hne).
  assert (T : forall oc, token_handler (sv_ext S) (sv_issuer S) r oc = with_error 405 (Some (err invalid_request)) \/
     token_handler (sv_ext S) (sv_issuer S) r oc = with_error 401 (Some (err invalid_client)) \/
     token_handler (sv_ext S) (sv_issuer S) r oc = with_error 400 (Some (err invalid_dpop_proof))).
  { intros oc. unfold token_handler. destruct (negb _); [auto|]. destruct oc; [|auto]. cbv zeta. rewrite Hem.
    rewrite (proof_alg _ _ _ _ _ _ _ Hp Ha'). auto. }
  assert (P : forall oc, par_handler (sv_ext S) (sv_issuer S) (sv_decoder S) r oc = Ret (HText 405) \/
     par_handler (sv_ext S) (sv_issuer S) (sv_decoder S) r oc = Ret (HText 200) \/
     par_handler (sv_ext S) (sv_issuer S) (sv_decoder S) r oc = with_error 400 (Some (err invalid_dpop_proof))).
  { intros oc. unfold par_handler. destruct (negb _); [auto|]. destruct oc; [|auto].
    rewrite (proof_alg _ _ _ _ _ _ _ Hp Ha'). auto. }
  split; [|split].
  - intros resp Hr Hok. destruct He as [-> | ->].
    + destruct (served_passed _ _ _ _ _ _ _ _ Hr Hok eq_refl) as (cl & t1 & t2 & _ & X & _).
      cbn [runs] in X. destruct (T cl) as [Y|[Y|Y]]; rewrite Y in X; apply with_error_ret in X as (_ & ? & _ & ->); destruct Hok.
    + destruct (served_passed _ _ _ _ _ _ _ _ Hr Hok eq_refl) as (cl & t1 & t2 & _ & X & _).
      cbn [runs] in X. destruct (P cl) as [Y|[Y|Y]]; rewrite Y in X;
        [inversion X; subst; destruct Hok|inversion X; subst; destruct Hok|apply with_error_ret in X as (_ & ? & _ & ->); destruct Hok].
  - intros iss t a Hin. destruct (http_started _ _ _ _ _ _ Hs) as ((q & Hr) & _). apply in_hcalls in Hin.
    destruct (serve_http_create _ _ _ _ _ _ _ _ Hr Hin) as (_ & id & c & t1 & t2 & _ & _ & Hr2 & Hi).
    refine ((_ : never (CTokCreate iss t) _) _ _ _ Hr2 Hi). destruct (T (Some c)) as [->|[->| ->]]; never_tac.
  - intros iss uri ar a Hin. destruct (http_started _ _ _ _ _ _ Hs) as ((q & Hr) & _). apply in_hcalls in Hin.
    destruct He as [-> | ->]; unfold answer_http, serve_http in Hr;
      (destruct (authentication_then _ _ _ _ _ _ _ Hr Hin) as (oc & t1 & t2 & _ & H2 & Hi); [discriminate|discriminate|]).
    + refine ((_ : never (CReqReg iss uri ar) _) _ _ _ H2 Hi). destruct (T oc) as [->|[->| ->]]; never_tac.
    + refine ((_ : never (CReqReg iss uri ar) _) _ _ _ H2 Hi). destruct (P oc) as [->|[->| ->]]; never_tac.
Qed.

Lemma decoded_alg E alg dec c raw ar : parses_es384_only E alg -> request_decode E dec c raw = Some ar -> alg raw = "ES384"%string.
Proof.
  intros Hp. unfold request_decode, verifier_claims. destruct (is_empty raw); [discriminate|].
  destruct (x_parse E raw) as [t|] eqn:P; [|discriminate]. intros _. exact (Hp _ _ P).
Qed.

Lemma C118_request_objects_proof : forall S w xs i e r resp alg,
  parses_es384_only (sv_ext S) alg -> e = EAuthorize \/ e = EPar ->
  responded (http_history S w xs) i e r resp -> fulfilled resp ->
  In (alg (query_get r "request")) announced_request_algs.
Proof.
  intros S w xs i e r resp alg Hp He H Hok.
  assert (G : forall c ar, request_decode (sv_ext S) (sv_decoder S) c (query_get r "request") = Some ar ->
     In (alg (query_get r "request")) announced_request_algs).
  { intros c ar Hd. rewrite (decoded_alg _ _ _ _ _ _ Hp Hd). cbn. auto. }
  assert (W : forall st e t, reach (with_error st e) t (Ret resp) -> False).
  { intros st e' t X. apply with_error_ret in X as (_ & ? & _ & ->). destruct Hok. }
  destruct He as [-> | ->].
  - destruct H as [Hs Hd]. destruct (http_started _ _ _ _ _ _ Hs) as (_ & Hr & _). specialize (Hr _ Hd).
    cbn [runs] in Hr. unfold answer_http, serve_http, basic_authentication in Hr.
    destruct (hq_basic r) as [[u p]|]; [|inversion Hr; subst; destruct Hok].
    destruct (_ || _); [inversion Hr; subst; destruct Hok|].
    destruct (_ || _); [inversion Hr; subst; destruct Hok|]. unfold authorization_handler in Hr.
    destruct (negb _); [destruct (W _ _ _ Hr)|]. destruct (is_empty u); [destruct (W _ _ _ Hr)|].
    rstep Hr. destruct x as [c| | |]; try (destruct (W _ _ _ Hr)); [|rstep Hr]. cbv zeta in Hr.
    match type of Hr with context[match ?x with None => _ | Some _ => _ end] => destruct x as [sub|] end; [|destruct (W _ _ _ Hr)].
    destruct (request_decode _ _ _ _) as [ar|] eqn:D; [eapply G; eauto|destruct (W _ _ _ Hr)].
  - destruct (served_passed _ _ _ _ _ _ _ _ H Hok eq_refl) as (cl & t1 & t2 & _ & Hr & _).
    cbn [runs] in Hr. unfold par_handler in Hr. destruct (negb _); [inversion Hr; subst; destruct Hok|].
    destruct cl as [c|]; [|inversion Hr; subst; destruct Hok].
    apply reach_bind_ret in Hr as (v & u1 & u2 & _ & _ & Hr). destruct v; [|destruct (W _ _ _ Hr)].
    destruct (request_decode _ _ _ _) as [ar|] eqn:D; [eapply G; eauto|destruct (W _ _ _ Hr)].
Qed.

(** ** Proof keys for codes *)

Lemma serve_http_request S e r tr q i uri ar a :
  reach (answer_http S e r) tr q -> In (CReqReg i uri ar, a) tr ->
  e = EPar /\ exists oc tr1 tr2, tr = (tr1 ++ tr2)%list /\ In (CReqReg i uri ar, a) tr2 /\
    reach (par_handler (sv_ext S) (sv_issuer S) (sv_decoder S) r oc) tr2 q.
Proof.
  unfold answer_http, serve_http. intros H Hin.
  destruct e;
    try (destruct (authentication_then _ _ _ _ _ _ _ H Hin) as (oc & t1 & t2 & -> & H2 & Hi); [discriminate|discriminate|]).
  - exfalso. refine ((_ : never (CReqReg i uri ar) _) _ _ _ H2 Hi). unfold token_handler, Http.token_answer. never_tac; never_svc.
  - exfalso. refine ((_ : never (CReqReg i uri ar) _) _ _ _ H2 Hi). unfold introspection_handler. never_tac; never_svc.
  - exfalso. refine ((_ : never (CReqReg i uri ar) _) _ _ _ H2 Hi). unfold revocation_handler. never_tac; never_svc.
  - split; [reflexivity|]. exists oc, t1, t2. auto.
  - exfalso. refine ((_ : never (CReqReg i uri ar) _) _ _ _ H Hin).
    unfold basic_authentication, authorization_handler, respond_in_mode, respond_jwt, respond_code. cbv zeta. never_tac; never_svc.
  - exfalso. refine ((_ : never (CReqReg i uri ar) _) _ _ _ H2 Hi). unfold device_authorization_handler. never_tac; never_svc.
  - exfalso. refine ((_ : never (CReqReg i uri ar) _) _ _ _ H Hin).
    unfold basic_authentication, device_handler. never_tac; never_svc.
Qed.

Lemma authorized_facts E issuer dec ser salt r user tr q i code s a :
  reach (authorization_handler E issuer dec ser salt r user) tr q -> In (CSessReg i code s, a) tr ->
  exists ar0 ar, as_request s = Some ar /\ request_facts E ar0 ar.
Proof.
  intros H Hin. unfold authorization_handler in H.
  destruct (negb (String.eqb (hq_method r) "GET")); [exfalso; exact (never_error _ _ _ _ _ _ H Hin)|].
  destruct (is_empty user); [exfalso; exact (never_error _ _ _ _ _ _ H Hin)|].
  apply reach_do_inv in H as [[-> ->]|(an & t' & -> & H)]; [destruct Hin|].
  destruct Hin as [[=]|Hin].
  destruct an as [| | |x| | | | | | | |]; try (inversion H; subst; destruct Hin; fail).
  destruct x as [c| | |]; try (exfalso; exact (never_error _ _ _ _ _ _ H Hin)); [|inversion H; subst; destruct Hin].
  cbv zeta in H.
  match type of H with context[match ?x with None => _ | Some _ => _ end] => destruct x as [sub|] end;
    [|exfalso; exact (never_error _ _ _ _ _ _ H Hin)].
  destruct (request_decode E dec c (query_get r "request")) as [ar|]; [|exfalso; exact (never_error _ _ _ _ _ _ H Hin)].
  destruct (bind_call _ _ _ _ _ _ H Hin) as [(s1 & s2 & p' & -> & Hr & Hi)|(y & s1 & s2 & -> & Hr & Hr2 & Hi)].
  2:{ exfalso. refine ((_ : never (CSessReg i code s) _) _ _ _ Hr2 Hi).
      unfold respond_in_mode, respond_jwt, respond_code. cbv zeta. never_tac. }
  destruct (wp_in _ _ _ _ _ _ _ (authorize_wp E _) Hr Hi) as (u & v & -> & Hw).
  destruct Hw as (req & r0 & r1 & c1 & [= <-] & <- & [= <-] & -> & _ & _ & Hw).
  destruct Hw as [(_ & Hf)|(uri & p & d & _ & _ & _ & _ & _ & Hf)]; eexists; eexists; (split; [reflexivity|exact Hf]).
Qed.
Lemma pushed_facts E issuer dec r oc tr q i uri ar a :
  reach (par_handler E issuer dec r oc) tr q -> In (CReqReg i uri ar, a) tr -> exists ar0, request_facts E ar0 ar.
Proof.
  intros H Hin. unfold par_handler in H.
  destruct (negb (String.eqb (hq_method r) "POST")); [inversion H; subst; destruct Hin|].
  destruct oc as [c|]; [|inversion H; subst; destruct Hin].
  destruct (bind_call _ _ _ _ _ _ H Hin) as [(t1 & t2 & p' & -> & Hr & Hi)|(x & t1 & t2 & -> & Hr & Hr2 & Hi)].
  { exfalso. refine ((_ : never (CReqReg i uri ar) _) _ _ _ Hr Hi). never_svc. }
  destruct x as [thumb|]; [|exfalso; exact (never_error _ _ _ _ _ _ Hr2 Hi)].
  destruct (request_decode E dec c (query_get r "request")) as [ar'|]; [|exfalso; exact (never_error _ _ _ _ _ _ Hr2 Hi)].
  destruct (bind_call _ _ _ _ _ _ Hr2 Hi) as [(s1 & s2 & p' & -> & Hs & Hsi)|(y & s1 & s2 & -> & Hs & Hs2 & Hsi)].
  2:{ exfalso. destruct (gr_err y); [exact (never_error _ _ _ _ _ _ Hs2 Hsi)|inversion Hs2; subst; destruct Hsi]. }
  destruct (wp_in _ _ _ _ _ _ _ (register_wp E _) Hs Hsi) as (u & v & -> & Hw).
  destruct Hw as (req & c0 & r0 & c1 & [= <-] & _ & [= <-] & [= <-] & _ & _ & Hf & _). eauto.
Qed.
Lemma facts_challenge E ar0 ar : request_facts E ar0 ar -> In (ar_code_challenge_method ar) announced_challenge_methods.
Proof. intros F. rewrite (rf_result _ _ _ F). cbn [ar_code_challenge_method set_scope set_response_mode]. rewrite (rf_method _ _ _ F). cbn. auto. Qed.

Lemma C118_challenge_methods_proof : forall S w xs i iss ar a, let hh := http_history S w xs in
  (forall code s, In (HvCall i (CSessReg iss code s) a) hh -> as_request s = Some ar ->
     In (ar_code_challenge_method ar) announced_challenge_methods) /\
  (forall uri, In (HvCall i (CReqReg iss uri ar) a) hh ->
     In (ar_code_challenge_method ar) announced_challenge_methods).
Proof.
  intros S w xs i iss ar a hh. split.
  - intros code s H Hq. destruct (http_has_start _ _ _ i _ H eq_refl) as (e & r & Hs).
    destruct (http_started _ _ _ _ _ _ Hs) as ((q & Hr) & _). apply in_hcalls in H.
    destruct (serve_http_session _ _ _ _ _ _ _ _ _ Hr H) as (-> & user & password & _ & Hr').
    destruct (authorized_facts _ _ _ _ _ _ _ _ _ _ _ _ _ Hr' H) as (ar0 & ar' & E & F).
    rewrite Hq in E. injection E as <-. eapply facts_challenge; eauto.
  - intros uri H. destruct (http_has_start _ _ _ i _ H eq_refl) as (e & r & Hs).
    destruct (http_started _ _ _ _ _ _ Hs) as ((q & Hr) & _). apply in_hcalls in H.
    destruct (serve_http_request _ _ _ _ _ _ _ _ _ Hr H) as (-> & oc & t1 & t2 & _ & Hi & Hr').
    destruct (pushed_facts _ _ _ _ _ _ _ _ _ _ _ Hr' Hi) as (ar0 & F). eapply facts_challenge; eauto.
Qed.

(** ** Client authentication *)

Lemma C118_auth_methods_proof : forall S w xs i e r resp,
  for_clients e -> responded (http_history S w xs) i e r resp -> fulfilled resp ->
  exists m, auth_method r = Some m /\
    (In m announced_auth_methods \/
     m = "none"%string /\ exists c, w_clients w (query_get r "client_id") = Some c /\ cl_type c = CtPublic).
Proof.
  intros S w xs i e r resp He H Hok. destruct (for_clients_auth S e r He) as (next & Ha).
  destruct (served_passed _ _ _ _ _ _ _ _ H Hok Ha) as (cl & t1 & t2 & Ht & _ & D). unfold auth_method.
  destruct D as [(c & _ & Hq & Hc & ->)|(Hq & D)].
  - apply String.eqb_neq in Hq. rewrite Hq. eexists. split; [reflexivity|]. right. split; [reflexivity|]. exists c.
    split; [|exact Hc]. assert (X : In (CClientGet (query_get r "client_id"), AClient (SOk c)) (hcalls i (http_history S w xs)))
      by (rewrite Ht; left; reflexivity).
    apply in_hcalls, http_client in X. exact X.
  - rewrite Hq. cbn [String.eqb negb]. destruct D as [-> | ->]; (eexists; split; [reflexivity|left; cbn; auto]).
Qed.

(** ** Subjects *)

Lemma C118_subjects_refuted_proof : forall S w xs i e r c iss code s a, let hh := http_history S w xs in
  w_clients w (query_get r "client_id") = Some c -> ~ In (cl_subject_type c) announced_subject_types ->
  In (HvStart i e r) hh -> In (HvCall i (CSessReg iss code s) a) hh ->
  logs_in r (as_subject s).
Proof.
  intros S w xs i e r c iss code s a hh Hc Ht Hs H.
  destruct (http_started _ _ _ _ _ _ Hs) as ((q & Hr) & _). assert (Hin := H). apply in_hcalls in Hin.
  destruct (serve_http_session _ _ _ _ _ _ _ _ _ Hr Hin) as (-> & user & password & Hb & Hr').
  destruct (C64_signed_requests_partial_proof _ _ _ _ _ _ _ _ _ _ _ _ _ Hr' Hin) as (c' & asked & sub & g & Hget & _ & _ & _ & -> & Hsub & _).
  apply in_hcalls, http_client in Hget. rewrite Hc in Hget. injection Hget as <-.
  unfold subject_for in Hsub. destruct (String.eqb_spec (cl_subject_type c) "pairwise") as [X|_].
  - exfalso. apply Ht. rewrite X. cbn. auto.
  - cbn [as_subject]. subst. exists password. exact Hb.
Qed.

(** ** Cases that are served and not announced *)

(** A public client starts the device flow. *)
Definition spa_r : http_request := post "/device/authorize" [("client_id", "spa")] [] [].
Definition x_spa : list hsched := hfull 0 EDeviceAuthorize spa_r [ok; ok; say "device-code"; say "user-code"; ok].

Lemma C118_auth_methods_refuted_proof : exists S w xs i e r resp m,
  registry_ok w /\ blank w /\ for_clients e /\ responded (http_history S w xs) i e r resp /\ fulfilled resp /\
  auth_method r = Some m /\ ~ In m announced_auth_methods.
Proof.
  exists web_server, (web_world true), x_spa, 0%nat, EDeviceAuthorize, spa_r. eexists. exists "none"%string.
  split; [apply registry_web|]. split; [apply blank_web|]. split; [exact I|].
  split; [split; [left; reflexivity|]; eapply nth_error_In with (n := 6%nat); vm_compute; reflexivity|].
  split; [exact I|]. split; [reflexivity|]. intros [X|[X|[]]]; discriminate X.
Qed.

(** The requests of the example, with another response type. *)
Definition for_token (r : authreq) : authreq :=
  mkAuthReq (ar_scope r) "token" (ar_client_id r) (ar_redirect_uri r) (ar_state r) (ar_response_mode r) (ar_nonce r)
    (ar_prompt r) (ar_request r) (ar_request_uri r) (ar_code_challenge r) (ar_code_challenge_method r) (ar_audience r) (ar_other r).
Definition token_server : http_server :=
  mkServer web_ext iss (fun s => option_map for_token (web_dec s)) (fun _ => Some "jarm"%string) web_salt.

Lemma C118_response_types_refuted_proof : exists S w xs i r resp iss code s a ar,
  let hh := http_history S w xs in
  registry_ok w /\ blank w /\ responded hh i EAuthorize r resp /\ fulfilled resp /\
  In (HvCall i (CSessReg iss code s) a) hh /\ ans_ok a = true /\ as_request s = Some ar /\
  ~ In (ar_response_type ar) announced_response_types.
Proof.
  exists token_server, (web_world true), (hfull 0 EAuthorize (authorize_r "app" "req-app") (os_authorize "code-1")), 0%nat,
    (authorize_r "app" "req-app"). do 6 eexists. intros hh.
  split; [apply registry_web|]. split; [apply blank_web|].
  split; [split; [left; reflexivity|]; eapply nth_error_In with (n := 6%nat); vm_compute; reflexivity|].
  split; [exact I|].
  split; [eapply nth_error_In with (n := 4%nat); vm_compute; reflexivity|].
  split; [reflexivity|]. split; [reflexivity|]. cbn. intros [X|[]]; discriminate X.
Qed.
