(** * examples/authorizationserver: middleware and response headers

    The same endpoints as in [Http.v], with the header of the response, which the
    middleware and the handlers write to. *)

From Verif Require Export HttpSystem UrlForm.
Local Open Scope string_scope.

(** net/http: Header.Set and Header.Get, for names in canonical form. *)
Definition headers := list (string * string).
Definition header_set (h : headers) (k v : string) : headers := (k, v) :: filter (fun p => negb (String.eqb (fst p) k)) h.
Fixpoint header_get (h : headers) (k : string) : string :=
  match h with
  | [] => ""
  | (n, v) :: h => if String.eqb n k then v else header_get h k
  end.

(** The values the middleware puts in the context of a request: middleware/basic_auth.go:65 and
    server/clientauthentication/context.go:35-44 (Inject, FromContext). *)
Record context := mkContext { cx_subject : option string; cx_client : option client }.
Definition background : context := mkContext None None.

(** http.Handler: the header that is to be sent is the state of the ResponseWriter. *)
Definition handler := context -> headers -> http_request -> prog (headers * http_response).
(** middleware/adapter.go:24-32 *)
Definition adapter := handler -> handler.
Definition adapt (h : handler) (adapters : list adapter) : handler := fold_left (fun h a => a h) adapters h.

(** middleware/secure_headers.go:30-38 *)
Definition security_headers : headers := [
  ("X-Frame-Options", "DENY");
  ("X-XSS-Protection", "1; mode=block");
  ("X-Content-Type-Options", "nosniff");
  ("Content-Security-Policy", "default-src 'none'");
  ("Referrer-Policy", "no-referrer");
  ("X-Robots-Tag", "noarchive");
  ("Cache-Control", "private, no-cache, must-revalidate")].
(** middleware/secure_headers.go:25-49.  The loop over the map sets distinct names: its order has no effect. *)
Definition set_security_headers : adapter := fun h cx hd r =>
  h cx (fold_left (fun hd p => header_set hd (fst p) (snd p)) security_headers hd) r.

Section Headers.
Context (S : http_server).
(** the description of an error (sdk/rfcerrors/errors.go), and what URL.String writes before a query *)
Context (describe text : string -> string).

Definition json_type := "application/json; charset=utf-8".
(** respond/helpers.go:36: the host of r.URL is empty in a request received by a server; codes and
    descriptions contain nothing that %q escapes. *)
Definition quoted (s : string) : string := String """" s ++ String """" "".
Definition bearer_challenge (e : oerror) : string :=
  "Bearer realm=" ++ quoted "" ++ ", error=" ++ quoted (e_code e) ++ ", error_description=" ++ quoted (describe (e_code e)).

(** What a response adds to the header: respond/helpers.go:28-60, http.Redirect (for GET), http.Error
    (par.go:51) and handlers/authorization.go:241-243 ([nonce] left out).  The type that net/http guesses from
    the body, when there is none, is left out. *)
Definition written (hd : headers) (resp : http_response) : headers :=
  match resp with
  | HError _ e => header_set (header_set hd "Content-Type" json_type) "WWW-Authenticate" (bearer_challenge e)
  | HToken _ _ _ _ _ | HDoc _ | HPushed _ _ _ | HDevice _ _ _ _ _ => header_set hd "Content-Type" json_type
  | HRedirectCode _ _ _ _ | HRedirectQuery _ _ | HRedirectFragment _ _ =>
      match location text resp with
      | Some url => header_set (header_set hd "Location" url) "Content-Type" "text/html; charset=utf-8"
      | None => hd
      end
  | HFormPost _ _ =>
      header_set (header_set (header_set hd "Cache-Control" "no-cache, no-store") "Pragma" "no-cache")
        "Content-Security-Policy" "script-src 'self'"
  | HText status =>
      if (status =? 405)%N
      then header_set (header_set hd "Content-Type" "text/plain; charset=utf-8") "X-Content-Type-Options" "nosniff"
      else hd
  | HEmpty | HForm => hd
  end.
Definition finish (hd : headers) (resp : http_response) : prog (headers * http_response) := Ret (written hd resp, resp).
(** A handler of [Http.v] with what it writes. *)
Definition handle (p : context -> http_request -> prog http_response) : handler := fun cx hd r => bind (p cx r) (finish hd).

(** middleware/basic_auth.go:41-71 *)
Definition basic_auth : adapter := fun h cx hd r =>
  let unauthorised := Ret (header_set hd "WWW-Authenticate" "Basic realm=Restricted", HText 401) in
  match hq_basic r with
  | None => unauthorised
  | Some (u, p) =>
      if Nat.ltb (String.length (trim_space u)) 1 || Nat.ltb (String.length (trim_space p)) 1 then unauthorised
      else if negb (String.eqb u "hello") || negb (String.eqb p "world") then unauthorised
      else h (mkContext (Some u) (cx_client cx)) hd r
  end.

(** middleware/client_auth.go:35-104 *)
Definition client_auth : adapter := fun h cx hd r =>
  let E := sv_ext S in
  let refuse := fun status code => finish hd (HError status (err code)) in
  let id := query_get r "client_id" in
  if negb (is_empty id) then
    client_get id (fun a =>
    match a with
    | SErr | SNotFound => refuse 401%N invalid_client
    | SNil => Panic
    | SOk c =>
        match cl_type c with
        | CtPublic => h (mkContext (cx_subject cx) (Some c)) hd r
        | _ => refuse 401%N invalid_client
        end
    end)
  else
    let method := post_value r "client_assertion_type" in
    let assertion := post_value r "client_assertion" in
    let msg := Some (mkAuthn (Some method) (Some assertion)) in
    let go := fun res : auth_response =>
      if aa_err res then refuse 401%N invalid_client else h (mkContext (cx_subject cx) (aa_client res)) hd r in
    if String.eqb method assertion_bearer then bind (private_key_jwt E msg) go
    else if String.eqb method assertion_attestation then bind (client_attestation E msg) go
    else refuse 401%N invalid_request.

(** middleware.Subject: "" stands for a subject that is not there. *)
Definition subject_in (cx : context) : string := match cx_subject cx with Some u => u | None => "" end.

(** main.go:65-71 *)
Definition routed (e : endpoint) : handler :=
  let E := sv_ext S in
  let issuer := sv_issuer S in
  match e with
  | EPar => adapt (handle (fun cx r => par_handler E issuer (sv_decoder S) r (cx_client cx))) [client_auth]
  | EAuthorize =>
      adapt (handle (fun cx r => authorization_handler E issuer (sv_decoder S) (sv_serializer S) (sv_salt S) r (subject_in cx)))
        [set_security_headers; basic_auth]
  | EToken => adapt (handle (fun cx r => token_handler E issuer r (cx_client cx))) [client_auth]
  | EIntrospect => adapt (handle (fun cx r => introspection_handler E issuer r (cx_client cx))) [client_auth]
  | ERevoke => adapt (handle (fun cx r => revocation_handler E issuer r (cx_client cx))) [client_auth]
  | EDeviceAuthorize => adapt (handle (fun cx r => device_authorization_handler E issuer r (cx_client cx))) [client_auth]
  | EDevice => adapt (handle (fun cx r => device_handler issuer r (subject_in cx))) [set_security_headers; basic_auth]
  end.
Definition sent (e : endpoint) (r : http_request) : prog (headers * http_response) := routed e background [] r.

End Headers.
