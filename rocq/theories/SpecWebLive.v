(** * Vocabulary for the statements about HTTP requests that are bound to succeed *)

From Verif Require Export SpecWeb SpecLive ClientHttp.

(** [raw] is an assertion of client [c]: signed with a key the client registered, with every
    claim, and valid until the clock shows [until] (seconds). *)
Definition assertion_by (E : ext) (w : world) (raw : string) (c : client) (until : N) : Prop :=
  raw <> ""%string /\ x_parse_jose E raw = true /\
  exists cl keys k, x_payload E KAssertion raw = Some cl /\
    c_iss cl <> ""%string /\ c_sub cl = c_iss cl /\ c_aud cl <> ""%string /\ c_jti cl <> ""%string /\
    (0 < c_exp cl)%N /\ (until <= c_exp cl)%N /\
    w_clients w (c_iss cl) = Some c /\ cl_jwks c <> ""%string /\ x_jwks E (cl_jwks c) = Some keys /\
    In k keys /\ k_use k <> "enc"%string /\ x_verify E k raw = true.

(** [raw] is an attestation of a registered attester, "~" and a proof of possession of the attested
    key, made in the name of client [c].  Both have every claim and are valid from [from] to [until]
    (seconds). *)
Definition attested_by (E : ext) (w : world) (raw : string) (c : client) (from until : N) : Prop :=
  exists att pop ca cp attester keys k key,
    raw = (att ++ "~" ++ pop)%string /\ ~ In "~"%char (list_ascii_of_string att) /\
    x_parse_jose E att = true /\ x_payload E KAttestation att = Some ca /\
    c_iss ca <> ""%string /\ c_sub ca <> ""%string /\ (0 < c_exp ca)%N /\ (until <= c_exp ca)%N /\ (c_nbf ca <= from)%N /\
    w_clients w (c_iss ca) = Some attester /\ cl_jwks attester <> ""%string /\ x_jwks E (cl_jwks attester) = Some keys /\
    In k keys /\ k_use k <> "enc"%string /\ x_verify E k att = true /\
    c_cnf_jwk ca = Some (Some key) /\
    x_parse_pop E pop = true /\ x_verify E key pop = true /\ x_payload E KPop pop = Some cp /\
    c_iss cp <> ""%string /\ c_jti cp <> ""%string /\ c_aud cp <> ""%string /\
    (0 < c_exp cp)%N /\ (until <= c_exp cp)%N /\ (c_nbf cp <= from)%N /\ w_clients w (c_iss cp) = Some c.

(** HTTP request [i] names a public client in its URL, or carries an assertion of client [c] that is
    valid to the end of the history, or an attestation for [c] that is valid from some time before
    the request to the end of the history. *)
Definition comes_from (S : http_server) (w : world) (hh : list hevent) (i : nat) (r : http_request) (c : client) : Prop :=
  (query_get r "client_id" <> ""%string /\ w_clients w (query_get r "client_id") = Some c /\ cl_type c = CtPublic) \/
  (query_get r "client_id" = ""%string /\
   post_value r "client_assertion_type" = "urn:ietf:params:oauth:client-assertion-type:jwt-bearer"%string /\
   assertion_by (sv_ext S) w (post_value r "client_assertion") c (unix (w_now w + time_in hh))) \/
  (query_get r "client_id" = ""%string /\
   post_value r "client_assertion_type" = "urn:ietf:params:oauth:client-assertion-type:jwt-client-attestation"%string /\
   exists e before since, hh = (before ++ since)%list /\ In (HvStart i e r) since /\
     attested_by (sv_ext S) w (post_value r "client_assertion") c
       (unix (w_now w + time_in before)) (unix (w_now w + time_in hh))).

(** The token generators did not fail for HTTP request [i]. *)
Definition web_generators_work (hh : list hevent) (i : nat) : Prop :=
  forall t a, In (HvCall i (CGenAT t) a) hh \/ In (HvCall i (CGenRT t) a) hh ->
    exists v, a = AGen (Some v) /\ v <> ""%string.
(** Nor did those of codes and request URIs. *)
Definition web_codes_work (hh : list hevent) (k : nat) : Prop :=
  forall i a, In (HvCall k (CGenCode i) a) hh \/ In (HvCall k (CGenURI i) a) hh ->
    exists v, a = AGen (Some v) /\ v <> ""%string.

(** ** Proofs of possession *)

(** [raw] is a DPoP proof for this method and URL, made at [made] (seconds) with the id [jti] and
    a key with thumbprint [th]. *)
Definition proof_by (E : ext) (raw htm htu jti : string) (made : N) (th : string) : Prop :=
  raw <> ""%string /\ x_request_uri E htu = true /\ In (x_upper E htm) http_methods /\ x_url_string E htu <> ""%string /\
  htm <> ""%string /\ htu <> ""%string /\
  exists t k cl, x_parse E raw = Some t /\ j_typ t = Some "dpop+jwt"%string /\ j_jwk t = Some k /\
    x_verify E k raw = true /\ x_payload E KDpop raw = Some cl /\ c_htm cl = htm /\ c_htu cl = x_url_string E htu /\
    c_iat cl = made /\ c_jti cl = jti /\ x_thumb E k = Some th.
(** The header of HTTP request [i] carries such a proof, at most 15 seconds ahead of the clock when
    the request comes and at most 15 seconds old at the end, and no other request has used its id. *)
Definition has_proof (S : http_server) (w : world) (hh : list hevent) (i : nat) (r : http_request) (th : string) : Prop :=
  exists jti made e before since, proof_by (sv_ext S) (hq_header r "DPoP") (hq_method r) (url_of r) jti made th /\
    hh = (before ++ since)%list /\ In (HvStart i e r) since /\
    (made <= unix (w_now w + time_in before + 15 * second))%N /\ (unix (w_now w + time_in hh - 15 * second) <= made)%N /\
    w_proof w (b64url (x_blake (sv_ext S) "" jti)) = None /\
    (forall j a, In (HvCall j (CProofReg (b64url (x_blake (sv_ext S) "" jti))) a) hh -> j = i).

(** The request to the token endpoint proves no possession, and its client need not. *)
Definition bearer (r : http_request) (c : client) : Prop :=
  hq_method r = "POST"%string /\ hq_header r "DPoP" = ""%string /\ cl_dpop_bound c = false.
(** The request to the token endpoint is of this kind or it carries a proof of possession; [cnf]
    is the thumbprint to which the tokens will be bound. *)
Definition holds (S : http_server) (w : world) (hh : list hevent) (i : nat) (r : http_request) (c : client)
    (cnf : option string) : Prop :=
  (bearer r c /\ cnf = None) \/
  (hq_method r = "POST"%string /\ exists th, has_proof S w hh i r th /\ cnf = Some (b64url th)).
(** The type of the tokens that are sent to it. *)
Definition type_sent (cnf : option string) : string :=
  match cnf with None => "Bearer"%string | Some _ => "DPoP"%string end.

(** ** The SDK client *)

(** What is expected of the JOSE library: the SDK client signs with the private part of [k]. *)
Definition signs_with (E : ext) (k : jwk) (sign : claims -> option string) : Prop :=
  forall cl raw, sign cl = Some raw ->
    raw <> ""%string /\ x_parse_jose E raw = true /\ x_payload E KAssertion raw = Some cl /\ x_verify E k raw = true.
(** Client [c] uses the SDK with a key it registered. *)
Definition uses_sdk (S : http_server) (w : world) (c : client) (sign : claims -> option string) : Prop :=
  w_clients w (cl_id c) = Some c /\ cl_id c <> ""%string /\ cl_jwks c <> ""%string /\
  exists keys k, x_jwks (sv_ext S) (cl_jwks c) = Some keys /\ In k keys /\ k_use k <> "enc"%string /\
    signs_with (sv_ext S) k sign.
(** [raw] is an assertion the SDK made for client [c] when the clock showed [made]. *)
Definition sdk_assertion (c : client) (sign : claims -> option string) (raw : string) (made : N) : Prop :=
  exists audience jti now2, audience <> ""%string /\ jti <> ""%string /\
    client_assertion sign (cl_id c) audience jti made now2 = Some raw.

(** ** Codes and refresh tokens *)

(** The HTTP request revokes the token in the slot of [value], or refreshes with it. *)
Definition web_uses_up (S : http_server) (e : endpoint) (r : http_request) (value : string) : Prop :=
  let slot := tok_key (sv_ext S) (sv_issuer S) in
  match e with
  | ERevoke => slot (form_value r "token") = slot value
  | EToken => form_value r "grant_type" = "refresh_token"%string /\ slot (form_value r "refresh_token") = slot value
  | _ => False
  end.

(** ** Authorization *)

(** The URL of the HTTP request carries [ar], signed by client [c]. *)
Definition carries (S : http_server) (c : client) (r : http_request) (ar : authreq) : Prop :=
  let raw := query_get r "request" in
  raw <> ""%string /\ signed_by (sv_ext S) c raw /\ sv_decoder S raw = Some ar.
(** The user is sent to [uri] with a code, the state and the issuer, plainly or in a signed response. *)
Definition sends_back (S : http_server) (resp : http_response) (uri code state client_id : string) : Prop :=
  match resp with
  | HRedirectCode u c i s => u = uri /\ c = code /\ i = sv_issuer S /\ s = state
  | HRedirectQuery u raw | HRedirectFragment u raw | HFormPost u raw =>
      u = uri /\ exists expires, sv_serializer S (mkJarm (sv_issuer S) client_id expires code state "" "") = Some raw
  | _ => False
  end.
(** The JARM responses can be signed. *)
Definition responses_signed (S : http_server) : Prop := forall cl, exists raw, sv_serializer S cl = Some raw.

(** ** Devices *)

(** The generators of device and user codes did not fail for HTTP request [i]. *)
Definition web_device_codes_work (hh : list hevent) (k : nat) : Prop :=
  forall i a, In (HvCall k (CGenDev i) a) hh \/ In (HvCall k (CGenUser i) a) hh ->
    exists v, a = AGen (Some v) /\ v <> ""%string.
(** They give different codes to different requests. *)
Definition web_device_codes_apart (E : ext) (hh : list hevent) : Prop :=
  forall d1 i1 u1 s1 a1 d2 i2 u2 s2 a2,
    In (HvCall d1 (CDevReg i1 u1 s1) a1) hh -> In (HvCall d2 (CDevReg i2 u2 s2) a2) hh ->
    user_key E (ds_issuer s1) u1 = user_key E (ds_issuer s2) u2 \/
    device_key E (ds_issuer s1) (ds_device_code s1) = device_key E (ds_issuer s2) (ds_device_code s2) ->
    d1 = d2.
