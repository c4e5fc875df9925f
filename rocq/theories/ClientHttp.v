(** * client/http.go: the requests the SDK client sends *)

From Verif Require Export Client Http.

(** url.Values with one value per name, as the body of a POST. *)
Definition form_body (params : list (string * string)) (k : string) : list string :=
  map snd (filter (fun p => String.eqb (fst p) k) params).

(** A POST of a form (http.go:333-340 and 381-388).  The endpoint in the server metadata is a
    URL without a query; no header that the server reads is set. *)
Definition sdk_post (tls : bool) (host path : string) (params : list (string * string)) : http_request :=
  mkHttp "POST" (fun _ => []) (form_body params) (fun _ => "") None tls host path.

(** http.go:318-340 ClientCredentials *)
Definition credentials_request (tls : bool) (host path assertion : string) : http_request :=
  sdk_post tls host path
    [("grant_type", "client_credentials"); ("client_assertion", assertion); ("client_assertion_type", assertion_bearer)].

(** http.go:366-388 Introspect *)
Definition introspection_request (tls : bool) (host path assertion token : string) : http_request :=
  sdk_post tls host path
    [("token", token); ("client_assertion", assertion); ("client_assertion_type", assertion_bearer)].

(** http.go:346-363: what ClientCredentials returns, access token, type and refresh token;
    [None] is an error.  The member expires_in is not read. *)
Definition credentials_result (resp : http_response) : option (string * string * string) :=
  match resp with
  | HToken access _ type refresh _ => Some (access, type, refresh)
  | _ => None
  end.

(** http.go:395-427: what Introspect returns; [Done None] is an error. *)
Definition introspection_result (value : string) (resp : http_response) : outcome (option rs_token) :=
  match resp with
  | HDoc d => match introspect_decode value d with Done t => Done (Some t) | Crashed => Crashed end
  | _ => Done None
  end.
