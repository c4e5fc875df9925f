(** * examples/authorizationserver: the HTTP endpoints

    A handler is a program that makes the calls of the services it uses.  The only
    parts of an HTTP request that are kept are those the handlers read. *)

From Verif Require Export Jarm Sdk AuthzSvc DeviceSvc ClientAuth.

Record http_request := mkHttp {
  hq_method : string;
  (** values of a parameter in the URL, and in the body of a POST, in order *)
  hq_query : string -> list string;
  hq_body : string -> list string;
  (** first value of a header, "" when absent *)
  hq_header : string -> string;
  (** r.BasicAuth() *)
  hq_basic : option (string * string);
  hq_tls : bool;
  hq_host : string;
  hq_path : string
}.

Definition first (l : list string) : string := match l with [] => "" | x :: _ => x end.
(** net/http: r.URL.Query().Get, r.PostFormValue, r.FormValue (the body comes first) *)
Definition query_get (r : http_request) (k : string) : string := first (hq_query r k).
Definition post_value (r : http_request) (k : string) : string := first (hq_body r k).
Definition form_value (r : http_request) (k : string) : string := first (hq_body r k ++ hq_query r k)%list.

(** dpop.CleanURL(r) *)
Definition url_of (r : http_request) : string :=
  clean_url (hq_tls r) (hq_header r "X-Forwarded-Scheme") (hq_host r) (hq_path r).

(** handlers/helpers.go:22-27 *)
Definition optional_string (s : string) : option string := if is_empty s then None else Some s.

(** What the client receives. *)
Inductive http_response :=
| HError (status : N) (e : oerror)                       (* respond.WithError *)
| HText (status : N)                                     (* http.Error, bare status *)
| HToken (access : string) (expires_in : N) (type refresh scope : string)
| HDoc (d : doc)
| HEmpty                                                 (* 200 without a body *)
| HPushed (issuer uri : string) (expires_in : N)
| HDevice (device_code user_code uri : string) (expires_in interval : N)
| HRedirectCode (uri code issuer state : string)         (* parameters in the query *)
| HRedirectQuery (uri response : string)                 (* JARM in the query *)
| HRedirectFragment (uri response : string)              (* JARM in the fragment *)
| HFormPost (uri response : string)                      (* JARM in a self-submitting form *)
| HForm.                                                 (* user code form *)

(** respond/helpers.go:28-44 WithError: dereferences the error object. *)
Definition with_error (status : N) (e : option oerror) : prog http_response :=
  match e with Some e => Ret (HError status e) | None => Panic end.

(** Subtraction of uint64. *)
Definition sub64 (a b : N) : N := if (b <=? a)%N then (a - b)%N else (2 ^ 64 + a - b)%N.

Section Http.
Context (E : ext) (issuer : string).

(** middleware/client_auth.go:35-104; [next] gets the client put in the context. *)
Definition client_authentication (next : option client -> prog http_response) (r : http_request)
  : prog http_response :=
  let id := query_get r "client_id" in
  if negb (is_empty id) then
    client_get id (fun a =>
    match a with
    | SErr | SNotFound => with_error 401 (Some (err invalid_client))
    | SNil => Panic                                   (* client.ClientType *)
    | SOk c =>
        match cl_type c with
        | CtPublic => next (Some c)
        | _ => with_error 401 (Some (err invalid_client))
        end
    end)
  else
    let method := post_value r "client_assertion_type" in
    let assertion := post_value r "client_assertion" in
    let msg := Some (mkAuthn (Some method) (Some assertion)) in
    let finish := fun res : auth_response =>
      if aa_err res then with_error 401 (Some (err invalid_client)) else next (aa_client res) in
    if String.eqb method assertion_bearer then bind (private_key_jwt E msg) finish
    else if String.eqb method assertion_attestation then bind (client_attestation E msg) finish
    else with_error 401 (Some (err invalid_request)).

(** handlers/token.go:48-86 messageBuilder (and the confirmation added at 125-128) *)
Definition token_message (r : http_request) (c : client) (cnf : option string) : token_request :=
  let gt := form_value r "grant_type" in
  mkTokReq issuer (Some c) gt None cnf None
    (if String.eqb gt gt_code then
       GAuthorizationCode (form_value r "code") (form_value r "redirect_uri") (form_value r "code_verifier")
     else if String.eqb gt gt_cc then GClientCredentials
     else if String.eqb gt gt_device then GDeviceCode (form_value r "device_code")
     else if String.eqb gt gt_refresh then GRefreshToken (form_value r "refresh_token")
     else GNone).

(** handlers/token.go:131-158: the answer of the service turned into HTTP. *)
Definition token_answer (r : http_request) (res : token_response) : prog http_response :=
  if tr_err res then with_error 400 (tr_error res)
  else
    match tr_at res with
    | None => Panic
    | Some at_ =>
        now (fun t =>
        match t_meta at_ with
        | None => Panic
        | Some m =>
            Ret (HToken (t_value at_) (sub64 (m_expires_at m) (unix t))
                   (if is_empty (hq_header r "DPoP") then "Bearer" else "DPoP")
                   (match tr_rt res with Some rt => t_value rt | None => "" end) (m_scope m))
        end)
    end.

(** handlers/token.go:88-160 *)
Definition token_handler (r : http_request) (client : option client) : prog http_response :=
  if negb (String.eqb (hq_method r) "POST") then with_error 405 (Some (err invalid_request))
  else
    match client with
    | None => with_error 401 (Some (err invalid_client))
    | Some c =>
        let proof := hq_header r "DPoP" in
        if is_empty proof then
          if cl_dpop_bound c then with_error 400 (Some (err invalid_request))
          else bind (token_svc E (Some (token_message r c None))) (token_answer r)
        else
          bind (dpop_verify E (hq_method r) (url_of r) proof None None) (fun v =>
          match v with
          | None => with_error 400 (Some (err invalid_dpop_proof))
          | Some jkt => bind (token_svc E (Some (token_message r c (Some jkt)))) (token_answer r)
          end)
    end.

(** handlers/token_introspection.go:67-98; acr and auth_time are never set. *)
Definition introspection_doc (t : token) (m : token_meta) (now : N) : doc :=
  let active := is_active (t_status t) && is_usable (Some t) now in
  ("active", JBool active) ::
  if active then
    [("scope", JStr (m_scope m)); ("client_id", JStr (m_client_id m)); ("exp", JNum (m_expires_at m));
     ("iat", JNum (m_issued_at m)); ("nbf", JNum (m_not_before m)); ("sub", JStr (m_subject m));
     ("aud", JStr (m_audience m)); ("iss", JStr (m_issuer m)); ("jti", JStr (t_id t))]
    ++ match t_cnf t with
       | Some jkt => [("token_type", JStr "DPoP"); ("cnf", JObj [("jkt", JStr jkt)])]
       | None => [("token_type", JStr "Bearer")]
       end
  else [].

(** handlers/token_introspection.go:33-102 *)
Definition introspection_handler (r : http_request) (client : option client) : prog http_response :=
  match client with
  | None => with_error 401 (Some (err invalid_client))
  | Some c =>
      bind (introspect_svc E (Some (mkValReq issuer (Some c) (form_value r "token")))) (fun res =>
      if ir_err res then with_error 400 (ir_error res)
      else
        match ir_token res with
        | None => Panic                               (* res.Token.Status *)
        | Some t =>
            now (fun n =>
            match t_meta t with
            | None => Ret (HDoc [("active", JBool false)])
            | Some m => Ret (HDoc (introspection_doc t m (unix n)))
            end)
        end)
  end.

(** handlers/token_revocation.go:32-62 *)
Definition revocation_handler (r : http_request) (client : option client) : prog http_response :=
  match client with
  | None => with_error 401 (Some (err invalid_client))
  | Some c =>
      bind (revoke_svc E (Some (mkValReq issuer (Some c) (form_value r "token")))) (fun res =>
      if rr_err res then with_error 400 (rr_error res) else Ret HEmpty)
  end.

(** sdk/jwsreq/decoder.go:45-71 Decode with the client's keys
    (handlers/authorization.go:87-96, handlers/par.go:78-87).  The header type is not
    looked at.  [dec] turns the payload into a request (protojson). *)
Definition request_decode (dec : string -> option authreq) (c : client) (raw : string) : option authreq :=
  if is_empty raw then None else verifier_claims E dec (x_jwks E (cl_jwks c)) raw.

(** handlers/par.go:41-118 *)
Definition par_handler (dec : string -> option authreq) (r : http_request) (client : option client)
  : prog http_response :=
  if negb (String.eqb (hq_method r) "POST") then Ret (HText 405)
  else
    match client with
    | None => Ret (HText 200)                         (* an error document with status 200 *)
    | Some c =>
        bind (dpop_verify E (hq_method r) (url_of r) (hq_header r "DPoP") None None) (fun v =>
        match v with
        | None => with_error 400 (Some (err invalid_dpop_proof))
        | Some _ =>
            match request_decode dec c (query_get r "request") with
            | None => with_error 400 (Some (err invalid_request))
            | Some ar =>
                bind (register_svc E (Some (mkRegReq issuer (Some c) (Some ar)))) (fun res =>
                if gr_err res then with_error 400 (gr_error res)
                else Ret (HPushed (gr_issuer res) (gr_request_uri res) (gr_expires_in res)))
            end
        end)
    end.

(** middleware/basic_auth.go:41-71; [next] gets the subject. *)
Definition basic_authentication (next : string -> prog http_response) (r : http_request) : prog http_response :=
  match hq_basic r with
  | None => Ret (HText 401)
  | Some (u, p) =>
      if Nat.ltb (String.length (trim_space u)) 1 || Nat.ltb (String.length (trim_space p)) 1
      then Ret (HText 401)
      else if negb (String.eqb u "hello") || negb (String.eqb p "world") then Ret (HText 401)
      else next u
  end.

(** The response given to the JARM encoder (its error is nil when it is used). *)
Definition to_encode (res : authorize_response) : jarm_response :=
  mkJarmResp (match zr_error res with None => None | Some e => Some (e_code e, "") end)
    (zr_code res) (zr_state res) (zr_client_id res) (zr_expires_in res) (zr_issuer res).

(** handlers/authorization.go:163-254: the three JARM modes differ in the way the
    result is delivered. *)
Definition respond_jwt (ser : jarm_claims -> option string) (res : authorize_response)
    (deliver : string -> string -> http_response) : prog http_response :=
  if negb (x_request_uri E (zr_redirect_uri res)) then with_error 500 (Some (err server_error))
  else
    now (fun t =>
    match jarm_encode ser (zr_issuer res) (Some (to_encode res)) t with
    | None => with_error 500 (Some (err server_error))
    | Some raw => Ret (deliver (zr_redirect_uri res) raw)
    end).

(** handlers/authorization.go:136-161 *)
Definition respond_code (res : authorize_response) : prog http_response :=
  if negb (x_request_uri E (zr_redirect_uri res)) then with_error 500 (Some (err server_error))
  else Ret (HRedirectCode (zr_redirect_uri res) (zr_code res) (zr_issuer res) (zr_state res)).

(** handlers/authorization.go:117-131 *)
Definition respond_in_mode (ser : jarm_claims -> option string) (res : authorize_response) : prog http_response :=
  let m := zr_response_mode res in
  if String.eqb m rt_code then respond_code res
  else if String.eqb m rm_query_jwt then respond_jwt ser res HRedirectQuery
  else if String.eqb m rm_fragment_jwt then respond_jwt ser res HRedirectFragment
  else if String.eqb m rm_form_post_jwt then respond_jwt ser res HFormPost
  else respond_jwt ser res HRedirectQuery.

(** handlers/authorization.go:47-132; [salt] keys the pairwise encoder. *)
Definition authorization_handler (dec : string -> option authreq) (ser : jarm_claims -> option string)
    (salt : string) (r : http_request) (subject : string) : prog http_response :=
  if negb (String.eqb (hq_method r) "GET") then with_error 405 (Some (err invalid_request))
  else if is_empty subject then with_error 401 (Some (err invalid_client))
  else
    client_get (query_get r "client_id") (fun a =>
    match a with
    | SErr | SNotFound => with_error 400 (Some (err invalid_request))
    | SNil => Panic                                   (* client.SubjectType *)
    | SOk c =>
        let sub :=
          if String.eqb (cl_subject_type c) "pairwise"
          then pairwise_encode (x_blake E) salt (cl_sector c) subject else Some subject in
        match sub with
        | None => with_error 500 (Some (err server_error))
        | Some sub =>
            match request_decode dec c (query_get r "request") with
            | None => with_error 400 (Some (err invalid_request))
            | Some ar =>
                bind (authorize_svc E (Some (mkAuthzReq issuer sub (Some ar)))) (fun res =>
                if zr_err res then with_error 400 (zr_error res)
                else respond_in_mode ser res)
            end
        end
    end).

(** handlers/device_authorization.go:32-75: the client is the one named in the form. *)
Definition device_authorization_handler (r : http_request) (client : option client) : prog http_response :=
  if negb (String.eqb (hq_method r) "POST") then with_error 405 (Some (err invalid_request))
  else
    bind (dev_authorize_svc E (Some (mkDevReq issuer (form_value r "client_id")
            (optional_string (form_value r "scope")) (optional_string (form_value r "audience"))))) (fun res =>
    if dv_err res then with_error 400 (dv_error res)
    else Ret (HDevice (dv_device_code res) (dv_user_code res) (issuer ++ "/device")%string
                (dv_expires_in res) (dv_interval res))).

(** handlers/device_validation.go:33-106 *)
Definition device_handler (r : http_request) (subject : string) : prog http_response :=
  if is_empty subject then with_error 401 (Some (err invalid_request))
  else if String.eqb (hq_method r) "GET" then Ret HForm
  else if String.eqb (hq_method r) "POST" then
    bind (dev_validate_svc (Some (mkDevVal issuer (post_value r "user_code") subject))) (fun res =>
    if vr_err res then with_error 400 (vr_error res) else Ret HEmpty)
  else with_error 405 (Some (err invalid_request)).

(** ** main.go:66-77: the endpoints with their middleware *)
Inductive endpoint := EToken | EIntrospect | ERevoke | EPar | EAuthorize | EDeviceAuthorize | EDevice.

Definition serve_http (dec : string -> option authreq) (ser : jarm_claims -> option string) (salt : string)
    (e : endpoint) (r : http_request) : prog http_response :=
  match e with
  | EToken => client_authentication (token_handler r) r
  | EIntrospect => client_authentication (introspection_handler r) r
  | ERevoke => client_authentication (revocation_handler r) r
  | EPar => client_authentication (par_handler dec r) r
  | EAuthorize => basic_authentication (authorization_handler dec ser salt r) r
  | EDeviceAuthorize => client_authentication (device_authorization_handler r) r
  | EDevice => basic_authentication (device_handler r) r
  end.

End Http.
