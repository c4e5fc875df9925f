(** * HTTP histories: the theorems

    Written by tools/gen_props.py: the statements are those of the lemmas proved in
    PfWeb2, PfWeb3, PfWeb4, PfWeb5, PfWait, PfWebRace.
    Below each theorem, a concrete case that meets its hypotheses. *)

From Verif Require Import MeetWeb PfWait PfWebRace.

(** ** C65 No HTTP request crashes its handler *)

Theorem C65_only_crashes_partial : forall S w xs i,
  let hh := http_history S w xs in
  blank w -> hno_faults xs -> In (HvDone i Crashed) hh ->
  exists e r, In (HvStart i e r) hh /\
    ((* a token is to be revoked that is not stored *)
     (e = ERevoke /\ exists h1 h2, hh = (h1 ++ h2)%list /\ In (HvStart i e r) h1 /\
        forall t, ~ web_stored_as (sv_ext S) h1 (sv_issuer S) (form_value r "token") t) \/
     (* a code is redeemed that was authorized without the scope openid *)
     (e = EToken /\ form_value r "grant_type" = "authorization_code"%string /\
      exists user subject ar h1 h2, hh = (h1 ++ h2)%list /\ In (HvStart i e r) h1 /\
        web_authorized S w h1 (form_value r "code") user subject ar /\ ~ asks (sv_ext S) (ar_scope ar) "openid") \/
     (* the client shows an attestation whose key is null *)
     (query_get r "client_id" = ""%string /\
      exists att pop ca, post_value r "client_assertion" = (att ++ "~" ++ pop)%string /\
        x_payload (sv_ext S) KAttestation att = Some ca /\ c_cnf_jwk ca = Some None)).
Proof. exact C65_only_crashes_partial_proof. Qed.
Print Assumptions C65_only_crashes_partial.
Example C65_only_crashes_partial_met : exists S w xs i,
  blank w /\ hno_faults xs /\ In (HvDone i Crashed) (http_history S w xs).
Proof.
  exists web_server, (web_world true), x_http_revoke, 0%nat.
  split; [apply blank_web|]. split; [by_faults|by_nth 5%nat].
Qed.

(** ** C69 Over HTTP a code gives tokens once *)

Theorem C69_web_code_once : forall S w xs hh1 hh2 i j r1 r2 code,
  http_history S w xs = (hh1 ++ hh2)%list ->
  got_tokens hh1 i r1 -> sends_code r1 code ->
  In (HvStart j EToken r2) hh2 -> sends_code r2 code -> got_tokens (http_history S w xs) j r2 ->
  exists g1 g2, http_history S w xs = (g1 ++ g2)%list /\ In (HvStart i EToken r1) g1 /\
    web_handed_out (sv_ext S) g2 (sv_issuer S) code.
Proof. exact C69_web_code_once_proof. Qed.
Print Assumptions C69_web_code_once.
Example C69_web_code_once_met : exists S w xs hh1 hh2 i j r1 r2 code,
  http_history S w xs = (hh1 ++ hh2)%list /\
  got_tokens hh1 i r1 /\ sends_code r1 code /\
  In (HvStart j EToken r2) hh2 /\ sends_code r2 code /\ got_tokens (http_history S w xs) j r2.
Proof.
  exists web_server, (web_world false), x_web_code2, (firstn 23 h_code2), (skipn 23 h_code2), 1%nat, 3%nat, (redeem_r []),
    (redeem_r []), "code-1"%string.
  split; [by_cut|]. split; [by_tokens 7%nat 22%nat|]. split; [split; reflexivity|].
  split; [by_start 7%nat|]. split; [split; reflexivity|by_tokens 30%nat 45%nat].
Qed.

(** ** C70 Over HTTP tokens for a code go to the authorized client for what the user authorized *)

Theorem C70_web_code_grant : forall S w xs i r access expires type refresh scope,
  let hh := http_history S w xs in
  registry_ok w -> blank w ->
  responded hh i EToken r (HToken access expires type refresh scope) ->
  form_value r "grant_type" = "authorization_code"%string ->
  exists c user subject ar t m h1 h2 iss a,
    (* the client is who it says it is *)
    hq_method r = "POST"%string /\ authenticated S w hh i r c /\
    (* a user authorized this, less than a minute before the code was looked up *)
    hh = (h1 ++ h2)%list /\ In (HvStart i EToken r) h1 /\
    web_authorized S w h1 (form_value r "code") user subject ar /\
    (* the sender knows the code verifier and the redirect URI *)
    ar_code_challenge_method ar = "S256"%string /\
    b64url (x_sha256 (sv_ext S) (form_value r "code_verifier")) = ar_code_challenge ar /\
    ar_redirect_uri ar = form_value r "redirect_uri" /\
    listed (sv_ext S) (cl_redirect_uris c) (form_value r "redirect_uri") /\
    (* and gets a token for exactly what was authorized *)
    In (HvCall i (CTokCreate iss t) a) hh /\ ans_ok a = true /\ t_value t = access /\ t_type t = TtAccess /\
    t_meta t = Some m /\ m_subject m = subject /\ m_client_id m = cl_id c /\ m_issuer m = sv_issuer S /\
    m_audience m = ar_audience ar /\ m_scope m = ar_scope ar /\ scope = ar_scope ar /\
    asks (sv_ext S) scope "openid" /\ (refresh <> ""%string -> asks (sv_ext S) scope "offline_access").
Proof. exact C70_web_code_grant_proof. Qed.
Print Assumptions C70_web_code_grant.
Example C70_web_code_grant_met : exists S w xs i r access expires type refresh scope,
  registry_ok w /\ blank w /\
  responded (http_history S w xs) i EToken r (HToken access expires type refresh scope) /\
  form_value r "grant_type" = "authorization_code"%string /\ refresh <> ""%string.
Proof.
  exists web_server, (web_world true), x_http_code, 1%nat, (redeem_r dpop1). do 5 eexists.
  split; [apply registry_web|]. split; [apply blank_web|].
  split; [split; [by_start 7%nat|by_nth 26%nat]|]. split; [reflexivity|discriminate].
Qed.

(** ** C71 Over HTTP a revoked token stays unusable *)

Theorem C71_web_revocation_permanent : forall S w xs hh1 hh2 i r v,
  let hh := http_history S w xs in
  no_tokens w -> web_no_reuse (sv_ext S) hh -> hh = (hh1 ++ hh2)%list ->
  responded hh1 i ERevoke r HEmpty -> form_value r "token" = v ->
  (forall j r2, In (HvStart j EToken r2) hh2 -> sends_refresh r2 v ->
     ~ got_tokens hh j r2 /\ forall iss t a, ~ In (HvCall j (CTokCreate iss t) a) hh) /\
  (forall j r2 doc, In (HvStart j EIntrospect r2) hh2 -> form_value r2 "token" = v ->
     responded hh j EIntrospect r2 (HDoc doc) -> doc = [("active"%string, JBool false)]).
Proof. exact C71_web_revocation_permanent_proof. Qed.
Print Assumptions C71_web_revocation_permanent.
Example C71_web_revocation_permanent_met : exists S w xs hh1 hh2 i r v j r2 k r3 doc,
  no_tokens w /\ web_no_reuse (sv_ext S) (http_history S w xs) /\ http_history S w xs = (hh1 ++ hh2)%list /\
  responded hh1 i ERevoke r HEmpty /\ form_value r "token" = v /\
  In (HvStart j EToken r2) hh2 /\ sends_refresh r2 v /\
  In (HvStart k EIntrospect r3) hh2 /\ form_value r3 "token" = v /\
  responded (http_history S w xs) k EIntrospect r3 (HDoc doc).
Proof.
  exists web_server, (web_world false), x_web_revoked, (firstn 31 h_revoked), (skipn 31 h_revoked), 2%nat, (token_r "/revoke" "rt-1"),
    "rt-1"%string, 3%nat, (refresh_r []), 4%nat, (token_r "/introspect" "rt-1"). eexists.
  split; [apply blank_web|]. split; [by_reuse|]. split; [by_cut|]. split; [split; [by_start 24%nat|by_nth 30%nat]|].
  split; [reflexivity|]. split; [by_start 0%nat|]. split; [split; reflexivity|]. split; [by_start 6%nat|].
  split; [reflexivity|]. split; [by_start 37%nat|by_nth 43%nat].
Qed.

(** ** C72 Over HTTP introspection tells the truth and discloses nothing about unusable tokens *)

Theorem C72_web_introspection : forall S w xs i r doc,
  let hh := http_history S w xs in
  let value := form_value r "token" in
  no_tokens w -> hno_faults xs -> web_no_reuse (sv_ext S) hh ->
  responded hh i EIntrospect r (HDoc doc) ->
  exists c h1 h2 k1 k2,
    authenticated S w hh i r c /\
    (* the token was looked up at one point after the request came in, the clock read at another *)
    hh = (h1 ++ h2)%list /\ In (HvStart i EIntrospect r) h1 /\
    hh = (k1 ++ k2)%list /\ In (HvStart i EIntrospect r) k1 /\
    let now := unix (w_now w + time_in k1) in
    ((exists t m, web_live_as (sv_ext S) h1 (sv_issuer S) value t /\ t_meta t = Some m /\ within m now /\
        doc = token_document t m) \/
     ((forall t m, web_live_as (sv_ext S) h1 (sv_issuer S) value t -> t_meta t = Some m -> ~ within m now) /\
      doc = [("active"%string, JBool false)])).
Proof. exact C72_web_introspection_proof. Qed.
Print Assumptions C72_web_introspection.
Example C72_web_introspection_met : exists S w xs i r doc,
  no_tokens w /\ hno_faults xs /\ web_no_reuse (sv_ext S) (http_history S w xs) /\
  responded (http_history S w xs) i EIntrospect r (HDoc doc) /\
  exists l, doc = ("active"%string, JBool true) :: l.
Proof.
  exists web_server, (web_world false), x_web_intro, 2%nat, (token_r "/introspect" "at-1"). eexists.
  split; [apply blank_web|]. split; [by_faults|]. split; [by_reuse|].
  split; [split; [by_start 24%nat|by_nth 30%nat]|]. eexists. reflexivity.
Qed.

(** ** C73 Over HTTP device tokens need an approval by a logged-in user *)

Theorem C73_web_device_grant : forall S w xs i r access expires type refresh scope,
  let hh := http_history S w xs in
  registry_ok w -> blank w -> stamp_ok w ->
  responded hh i EToken r (HToken access expires type refresh scope) ->
  form_value r "grant_type" = "urn:ietf:params:oauth:grant-type:device_code"%string ->
  exists c user expiry t m h1 h2 iss a,
    hq_method r = "POST"%string /\ authenticated S w hh i r c /\
    (* a user approved this device for this client and this scope; the approval is still valid *)
    hh = (h1 ++ h2)%list /\ In (HvStart i EToken r) h1 /\
    web_device_approved S w h1 (form_value r "device_code") (cl_id c) scope user expiry /\
    (unix (w_now w + time_in h1) <= expiry)%N /\
    (* the token is for this user *)
    In (HvCall i (CTokCreate iss t) a) hh /\ ans_ok a = true /\ t_value t = access /\
    t_meta t = Some m /\ m_subject m = user /\ m_client_id m = cl_id c /\ m_issuer m = sv_issuer S /\
    m_scope m = scope /\ (refresh <> ""%string -> asks (sv_ext S) scope "offline_access").
Proof. exact C73_web_device_grant_proof. Qed.
Print Assumptions C73_web_device_grant.
Example C73_web_device_grant_met : exists S w xs i r access expires type refresh scope,
  registry_ok w /\ blank w /\ stamp_ok w /\
  responded (http_history S w xs) i EToken r (HToken access expires type refresh scope) /\
  form_value r "grant_type" = "urn:ietf:params:oauth:grant-type:device_code"%string /\ refresh <> ""%string.
Proof.
  exists web_server, web_worlds, x_web_device, 2%nat, (poll_r dpop1). do 5 eexists.
  split; [apply registry_webs|]. split; [apply blank_webs|]. split; [apply stamp_webs|].
  split; [split; [by_start 14%nat|by_nth 33%nat]|]. split; [reflexivity|discriminate].
Qed.

(** ** C74 Over HTTP a pushed request is used once *)

Theorem C74_web_request_uri_once : forall S w xs hh1 hh2 i j r1 r2 uri,
  http_history S w xs = (hh1 ++ hh2)%list ->
  got_code hh1 i r1 -> sends_request_uri S r1 uri ->
  In (HvStart j EAuthorize r2) hh2 -> sends_request_uri S r2 uri -> got_code (http_history S w xs) j r2 ->
  exists g1 g2, http_history S w xs = (g1 ++ g2)%list /\ In (HvStart i EAuthorize r1) g1 /\
    web_uri_handed_out (sv_ext S) g2 (sv_issuer S) uri.
Proof. exact C74_web_request_uri_once_proof. Qed.
Print Assumptions C74_web_request_uri_once.
Example C74_web_request_uri_once_met : exists S w xs hh1 hh2 i j r1 r2 uri,
  http_history S w xs = (hh1 ++ hh2)%list /\
  got_code hh1 i r1 /\ sends_request_uri S r1 uri /\
  In (HvStart j EAuthorize r2) hh2 /\ sends_request_uri S r2 uri /\ got_code (http_history S w xs) j r2.
Proof.
  exists web_server, (web_world true), x_web_par2, (firstn 20 h_par2), (skipn 20 h_par2), 1%nat, 3%nat,
    (authorize_r "app" "req-by-uri"), (authorize_r "app" "req-by-uri"), "urn:solid:1"%string.
  split; [by_cut|]. split; [eexists; split; [split; [by_start 11%nat|by_nth 19%nat]|exact I]|].
  split; [eexists; split; reflexivity|]. split; [by_start 11%nat|].
  split; [eexists; split; reflexivity|]. eexists; split; [split; [by_start 31%nat|by_nth 39%nat]|exact I].
Qed.

(** ** C75 Over HTTP a refresh gives what the refresh token stands for, to its client *)

Theorem C75_web_refresh_grant : forall S w xs i r access expires type refresh scope,
  let hh := http_history S w xs in
  let value := form_value r "refresh_token" in
  registry_ok w -> no_tokens w -> web_no_reuse (sv_ext S) hh ->
  responded hh i EToken r (HToken access expires type refresh scope) ->
  form_value r "grant_type" = "refresh_token"%string ->
  exists c rt m t mt h1 h2 iss a,
    hq_method r = "POST"%string /\ authenticated S w hh i r c /\
    (* the refresh token is of this client and neither revoked nor expired *)
    hh = (h1 ++ h2)%list /\ In (HvStart i EToken r) h1 /\
    web_live_as (sv_ext S) h1 (sv_issuer S) value rt /\ t_type rt = TtRefresh /\ t_meta rt = Some m /\
    (unix (w_now w + time_in h1) <= m_expires_at m)%N /\ m_client_id m = cl_id c /\
    (* the new token gives what the refresh token stands for *)
    In (HvCall i (CTokCreate iss t) a) hh /\ ans_ok a = true /\ t_value t = access /\ t_type t = TtAccess /\
    t_meta t = Some mt /\ m_subject mt = m_subject m /\ m_client_id mt = cl_id c /\ m_issuer mt = m_issuer m /\
    m_audience mt = m_audience m /\ m_scope mt = m_scope m /\ scope = m_scope m /\ t_cnf t = t_cnf rt.
Proof. exact C75_web_refresh_grant_proof. Qed.
Print Assumptions C75_web_refresh_grant.
Example C75_web_refresh_grant_met : exists S w xs i r access expires type refresh scope,
  registry_ok w /\ no_tokens w /\ web_no_reuse (sv_ext S) (http_history S w xs) /\
  responded (http_history S w xs) i EToken r (HToken access expires type refresh scope) /\
  form_value r "grant_type" = "refresh_token"%string.
Proof.
  exists web_server, (web_world false), x_web_rotate, 2%nat, refresh2_r. do 5 eexists.
  split; [apply registry_web|]. split; [apply blank_web|]. split; [by_reuse|].
  split; [split; [by_start 24%nat|by_nth 40%nat]|reflexivity].
Qed.

(** ** C76 Over HTTP every token with a subject goes back to that user's login *)

Theorem C76_web_consent : forall S w xs h1 i iss t a h2 m,
  blank w -> stamp_ok w -> http_history S w xs = (h1 ++ HvCall i (CTokCreate iss t) a :: h2)%list ->
  t_meta t = Some m -> m_subject m <> ""%string -> web_consented S w h1 (m_subject m).
Proof. exact C76_web_consent_proof. Qed.
Print Assumptions C76_web_consent.
Example C76_web_consent_met : exists S w xs h1 i iss t a h2 m,
  blank w /\ stamp_ok w /\ http_history S w xs = (h1 ++ HvCall i (CTokCreate iss t) a :: h2)%list /\
  t_meta t = Some m /\ m_subject m <> ""%string.
Proof.
  exists web_server, web_worlds, x_web_device. 
  pose (hh := http_history web_server web_worlds x_web_device).
  exists (firstn 27 hh), 2%nat. do 3 eexists. exists (skipn 28 hh). eexists.
  split; [apply blank_webs|]. split; [apply stamp_webs|]. split; [apply nth_split_at; vm_compute; reflexivity|].
  split; [reflexivity|discriminate].
Qed.

(** ** C77 Over HTTP a replaced refresh token is dead *)

Theorem C77_web_refresh_rotation_partial : forall S w xs hh1 hh2 i j r1 r2 value access expires type refresh scope,
  let hh := http_history S w xs in
  no_tokens w -> web_no_reuse (sv_ext S) hh -> hh = (hh1 ++ hh2)%list ->
  responded hh1 i EToken r1 (HToken access expires type refresh scope) -> sends_refresh r1 value ->
  (* the answer carries a new refresh token *)
  refresh <> ""%string ->
  In (HvStart j EToken r2) hh2 -> sends_refresh r2 value ->
  ~ got_tokens hh j r2 /\ forall iss t a, ~ In (HvCall j (CTokCreate iss t) a) hh.
Proof. exact C77_web_refresh_rotation_partial_proof. Qed.
Print Assumptions C77_web_refresh_rotation_partial.
Example C77_web_refresh_rotation_partial_met : exists S w xs hh1 hh2 i j r1 r2 value access expires type refresh scope,
  no_tokens w /\ web_no_reuse (sv_ext S) (http_history S w xs) /\ http_history S w xs = (hh1 ++ hh2)%list /\
  responded hh1 i EToken r1 (HToken access expires type refresh scope) /\ sends_refresh r1 value /\
  refresh <> ""%string /\ In (HvStart j EToken r2) hh2 /\ sends_refresh r2 value.
Proof.
  exists web_server, (web_world false), x_web_rotate, (firstn 41 h_rotate), (skipn 41 h_rotate), 2%nat, 3%nat, refresh2_r, refresh2_r,
    "rt-1"%string. do 5 eexists.
  split; [apply blank_web|]. split; [by_reuse|]. split; [by_cut|]. split; [split; [by_start 24%nat|by_nth 40%nat]|].
  split; [split; reflexivity|]. split; [discriminate|]. split; [by_start 0%nat|split; reflexivity].
Qed.

Theorem C77_in_flight_refuted : exists S w xs hh1 hh2 i j r1 r2 value,
  exists access expires type refresh scope access' expires' type' refresh' scope' iss t a,
  let hh := http_history S w xs in
  blank w /\ registry_ok w /\ hno_faults xs /\ web_no_reuse (sv_ext S) hh /\ hh = (hh1 ++ hh2)%list /\ i <> j /\
  responded hh1 i EToken r1 (HToken access expires type refresh scope) /\ sends_refresh r1 value /\ refresh <> ""%string /\
  responded hh j EToken r2 (HToken access' expires' type' refresh' scope') /\ sends_refresh r2 value /\
  (* another pair of tokens, created after the first pair was handed out *)
  In (HvCall j (CTokCreate iss t) a) hh2 /\ t_value t = refresh' /\ t_type t = TtRefresh /\ refresh' <> refresh.
Proof. exact C77_in_flight_refuted_proof. Qed.
Print Assumptions C77_in_flight_refuted.
(* The theorem is itself a concrete case. *)

(** ** C81 Every request is answered after a bounded number of its own steps *)

Theorem C81_requests_never_wait : forall E w before r after,
  (* a request arrives and, whatever else happens, is let run 13 times *)
  (13 <= turns (arrivals before) after)%nat ->
  In (EvStart (arrivals before) r) (history E w (before ++ SNew r :: after)) /\
  exists o, In (EvDone (arrivals before) o) (history E w (before ++ SNew r :: after)).
Proof. exact C81_requests_never_wait_proof. Qed.
Print Assumptions C81_requests_never_wait.
Example C81_requests_never_wait_met : exists E w before r after,
  arrivals before = 1%nat /\ (13 <= turns (arrivals before) after)%nat /\ (1 <= turns 0 after)%nat /\
  In (EvStart (arrivals before) r) (history E w (before ++ SNew r :: after)).
Proof.
  exists demo_ext, w0, [SNew (RToken (Some (redeem webapp "code-1")))], (RToken (Some (redeem webapp "code-2"))),
    (SStep 0 ok :: List.repeat (SStep 1 ok) 13).
  split; [reflexivity|]. split; [apply Nat.leb_le; reflexivity|]. split; [apply Nat.leb_le; reflexivity|].
  right. left. reflexivity.
Qed.

Theorem C81_http_requests_never_wait : forall S w before e r after,
  (24 <= http_turns (http_arrivals before) after)%nat ->
  In (HvStart (http_arrivals before) e r) (http_history S w (before ++ HNew e r :: after)) /\
  exists o, In (HvDone (http_arrivals before) o) (http_history S w (before ++ HNew e r :: after)).
Proof. exact C81_http_requests_never_wait_proof. Qed.
Print Assumptions C81_http_requests_never_wait.
Example C81_http_requests_never_wait_met : exists S w before e r after,
  http_arrivals before = 1%nat /\ (24 <= http_turns (http_arrivals before) after)%nat /\ (1 <= http_turns 0 after)%nat /\
  In (HvStart (http_arrivals before) e r) (http_history S w (before ++ HNew e r :: after)).
Proof.
  exists web_server, (web_world true), [HNew EToken refresh2_r], EToken, refresh2_r,
    (HStep 0 ok :: List.repeat (HStep 1 ok) 24).
  split; [reflexivity|]. split; [apply Nat.leb_le; reflexivity|]. split; [apply Nat.leb_le; reflexivity|].
  right. left. reflexivity.
Qed.
