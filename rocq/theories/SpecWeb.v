(** * Vocabulary of the statements about whole HTTP histories

    Everything here is about HTTP requests ([HvStart]), their answers ([HvDone]), the storage
    operations made for them ([HvCall]) and the time that passes ([HvTick]). *)

From Verif Require Export SpecHttp.

(** HTTP request [i], to endpoint [e], got this response. *)
Definition responded (hh : list hevent) (i : nat) (e : endpoint) (r : http_request) (resp : http_response) : Prop :=
  In (HvStart i e r) hh /\ In (HvDone i (Done resp)) hh.

(** The token endpoint gave tokens. *)
Definition got_tokens (hh : list hevent) (i : nat) (r : http_request) : Prop :=
  exists access expires type refresh scope, responded hh i EToken r (HToken access expires type refresh scope).

(** What a request to the token endpoint presents. *)
Definition sends_code (r : http_request) (code : string) : Prop :=
  form_value r "grant_type" = "authorization_code"%string /\ form_value r "code" = code.
Definition sends_refresh (r : http_request) (value : string) : Prop :=
  form_value r "grant_type" = "refresh_token"%string /\ form_value r "refresh_token" = value.
Definition sends_device_code (r : http_request) (code : string) : Prop :=
  form_value r "grant_type" = "urn:ietf:params:oauth:grant-type:device_code"%string /\
  form_value r "device_code" = code.

(** Time that passes during a history (nanoseconds). *)
Fixpoint time_in (hh : list hevent) : N :=
  match hh with
  | [] => 0
  | HvTick d :: hh => d + time_in hh
  | _ :: hh => time_in hh
  end.

(** An authorization is stored in the slot where [code] is looked up. *)
Definition web_handed_out (E : ext) (hh : list hevent) (issuer code : string) : Prop :=
  exists k iss' code' s a, In (HvCall k (CSessReg iss' code' s) a) hh /\
    sess_key E iss' code' = sess_key E issuer code.

(** The slot of a code is rewritten or deleted. *)
Definition web_code_rewritten (E : ext) (hh : list hevent) (issuer code : string) : Prop :=
  exists j c a, In (HvCall j c a) hh /\ ans_ok a = true /\
    ((exists iss' code' s, c = CSessReg iss' code' s /\ sess_key E iss' code' = sess_key E issuer code) \/
     (exists iss' code', c = CSessDel iss' code' /\ sess_key E iss' code' = sess_key E issuer code)).

(** [user] logged in with a password. *)
Definition logs_in (r : http_request) (user : string) : Prop :=
  exists password, hq_basic r = Some (user, password).

(** At the end of [hh], [user] has authorized [ar] for [code] under the name [subject]: the user
    sent a GET to the authorization endpoint with a request object signed by the client named in
    the URL; [ar] was stored in the slot of the code at most 60 seconds ago, and the slot has
    not been written since. *)
Definition web_authorized (S : http_server) (w : world) (hh : list hevent) (code user subject : string)
    (ar : authreq) : Prop :=
  let E := sv_ext S in
  exists h1 k r code' a h2 c,
    hh = (h1 ++ HvCall k (CSessReg (sv_issuer S) code' (mkSess (sv_issuer S) subject (Some ar))) a :: h2)%list /\
    In (HvStart k EAuthorize r) h1 /\ hq_method r = "GET"%string /\ logs_in r user /\
    w_clients w (query_get r "client_id") = Some c /\ signed_by E c (query_get r "request") /\
    subject_for E (sv_salt S) c user subject /\
    sess_key E (sv_issuer S) code' = sess_key E (sv_issuer S) code /\
    (time_in h2 <= 60 * second)%N /\ ~ web_code_rewritten E h2 (sv_issuer S) code.

(** At some point after HTTP request [i] was received, it was not later than [expiry] (seconds). *)
Definition valid_during (w : world) (hh : list hevent) (i : nat) (expiry : N) : Prop :=
  exists h1 h2, hh = (h1 ++ h2)%list /\ (exists e r, In (HvStart i e r) h1) /\
    (unix (w_now w + time_in h1) <= expiry)%N.

(** HTTP request [i] shows that it comes from client [c]: the client is public and named in the
    URL, or signed the assertion in the form, or holds a key that a registered client vouches for. *)
Definition authenticated (S : http_server) (w : world) (hh : list hevent) (i : nat) (r : http_request)
    (c : client) : Prop :=
  let E := sv_ext S in
  let assertion := post_value r "client_assertion" in
  (query_get r "client_id" <> ""%string /\ w_clients w (query_get r "client_id") = Some c /\ cl_type c = CtPublic) \/
  (query_get r "client_id" = ""%string /\
   post_value r "client_assertion_type" = "urn:ietf:params:oauth:client-assertion-type:jwt-bearer"%string /\
   exists cl keys k, x_payload E KAssertion assertion = Some cl /\ w_clients w (c_iss cl) = Some c /\
     x_jwks E (cl_jwks c) = Some keys /\ In k keys /\ x_verify E k assertion = true /\
     valid_during w hh i (c_exp cl)) \/
  (query_get r "client_id" = ""%string /\
   post_value r "client_assertion_type" = "urn:ietf:params:oauth:client-assertion-type:jwt-client-attestation"%string /\
   exists att pop ca cp attester keys k key,
     assertion = (att ++ "~" ++ pop)%string /\
     x_payload E KAttestation att = Some ca /\ w_clients w (c_iss ca) = Some attester /\
     x_jwks E (cl_jwks attester) = Some keys /\ In k keys /\ x_verify E k att = true /\
     c_cnf_jwk ca = Some (Some key) /\ valid_during w hh i (c_exp ca) /\
     x_payload E KPop pop = Some cp /\ x_verify E key pop = true /\ w_clients w (c_iss cp) = Some c /\
     valid_during w hh i (c_exp cp)).

(** No identifier and no (issuer, value) slot is used for two tokens. *)
Definition web_no_reuse (E : ext) (hh : list hevent) : Prop :=
  forall h1 i iss t a h2 j iss' t' a' h3,
    hh = (h1 ++ HvCall i (CTokCreate iss t) a :: h2 ++ HvCall j (CTokCreate iss' t') a' :: h3)%list ->
    t_id t <> t_id t' /\ tok_key E iss (t_value t) <> tok_key E iss' (t_value t').

(** A token was stored where [value] is looked up; and was not revoked afterwards. *)
Definition web_stored_as (E : ext) (hh : list hevent) (issuer value : string) (t : token) : Prop :=
  exists k iss' a, In (HvCall k (CTokCreate iss' t) a) hh /\ tok_key E iss' (t_value t) = tok_key E issuer value.
Definition web_revoked_in (hh : list hevent) (id : string) : Prop :=
  exists j iss a, In (HvCall j (CTokRevoke iss id) a) hh /\ ans_ok a = true.
Definition web_live_as (E : ext) (hh : list hevent) (issuer value : string) (t : token) : Prop :=
  exists h1 k iss' a h2, hh = (h1 ++ HvCall k (CTokCreate iss' t) a :: h2)%list /\
    tok_key E iss' (t_value t) = tok_key E issuer value /\ ~ web_revoked_in h2 (t_id t).

(** A pushed request is stored in the slot where [uri] is looked up. *)
Definition web_uri_handed_out (E : ext) (hh : list hevent) (issuer uri : string) : Prop :=
  exists k iss' uri' s a, In (HvCall k (CReqReg iss' uri' s) a) hh /\ req_key E iss' uri' = req_key E issuer uri.

(** The whole document about an active token (RFC 7662): every field comes from the stored token. *)
Definition token_document (t : token) (m : token_meta) : doc :=
  [("active", JBool true); ("scope", JStr (m_scope m)); ("client_id", JStr (m_client_id m));
   ("exp", JNum (m_expires_at m)); ("iat", JNum (m_issued_at m)); ("nbf", JNum (m_not_before m));
   ("sub", JStr (m_subject m)); ("aud", JStr (m_audience m)); ("iss", JStr (m_issuer m)); ("jti", JStr (t_id t))]%string
  ++ match t_cnf t with
     | Some jkt => [("token_type", JStr "DPoP"); ("cnf", JObj [("jkt", JStr jkt)])]%string
     | None => [("token_type", JStr "Bearer")]%string
     end.
(** [now] (seconds) lies between the times of the token. *)
Definition within (m : token_meta) (now : N) : Prop := (m_not_before m <= now <= m_expires_at m)%N.

(** In [hh], [user] approved the device behind [code]: a device authorization request naming
    [client] and [scope] stored a session; the user, logged in, posted the user code of this
    session, before [expiry]. *)
Definition web_device_approved (S : http_server) (w : world) (hh : list hevent)
    (code client scope user : string) (expiry : N) : Prop :=
  let E := sv_ext S in
  exists d rd user_code s0 a k rk s a',
    In (HvStart d EDeviceAuthorize rd) hh /\ hq_method rd = "POST"%string /\
    form_value rd "client_id" = client /\ form_value rd "scope" = scope /\
    In (HvCall d (CDevReg (sv_issuer S) user_code s0) a) hh /\
    device_key E (sv_issuer S) (ds_device_code s0) = device_key E (sv_issuer S) code /\
    In (HvStart k EDevice rk) hh /\ hq_method rk = "POST"%string /\ logs_in rk user /\
    user_key E (sv_issuer S) user_code = user_key E (sv_issuer S) (post_value rk "user_code") /\
    In (HvCall k (CDevVal (sv_issuer S) (post_value rk "user_code") s) a') hh /\
    ds_device_code s = ds_device_code s0 /\ ds_subject s = Some user /\ ds_expires_at s = expiry /\
    valid_during w hh k expiry.

(** The authorization endpoint sent a code to the client, plainly or in a signed response. *)
Definition got_code (hh : list hevent) (i : nat) (r : http_request) : Prop :=
  exists resp, responded hh i EAuthorize r resp /\
    match resp with
    | HRedirectCode _ _ _ _ | HRedirectQuery _ _ | HRedirectFragment _ _ | HFormPost _ _ => True
    | _ => False
    end.
(** The request object in the URL names this pushed request. *)
Definition sends_request_uri (S : http_server) (r : http_request) (uri : string) : Prop :=
  exists ar, sv_decoder S (query_get r "request") = Some ar /\ ar_request_uri ar = Some uri.

(** In [hh], a user known under the name [subject] logged in and authorized a client, or
    approved a device. *)
Definition web_consented (S : http_server) (w : world) (hh : list hevent) (subject : string) : Prop :=
  (exists k r user c code s a, In (HvStart k EAuthorize r) hh /\ hq_method r = "GET"%string /\ logs_in r user /\
     w_clients w (query_get r "client_id") = Some c /\ signed_by (sv_ext S) c (query_get r "request") /\
     subject_for (sv_ext S) (sv_salt S) c user subject /\
     In (HvCall k (CSessReg (sv_issuer S) code s) a) hh /\ as_subject s = subject) \/
  (exists k r s a, In (HvStart k EDevice r) hh /\ hq_method r = "POST"%string /\ logs_in r subject /\
     In (HvCall k (CDevVal (sv_issuer S) (post_value r "user_code") s) a) hh /\ ds_subject s = Some subject).
