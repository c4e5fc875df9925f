(** * Vocabulary: response headers *)

From Verif Require Export Headers SpecForm.

Section Sent.
Context (S : http_server) (describe text : string -> string) (hh : list hevent).

(** Request [i] was answered with the response [resp] and the header [hd]. *)
Definition delivered (i : nat) (e : endpoint) (r : http_request) (hd : headers) (resp : http_response) : Prop :=
  responded hh i e r resp /\ runs (sent S describe text e r) (hcalls i hh) (Done (hd, resp)).
End Sent.

(** The status line. *)
Definition status_of (resp : http_response) : N :=
  match resp with
  | HError status _ | HText status => status
  | HPushed _ _ _ => 201
  | HRedirectCode _ _ _ _ | HRedirectQuery _ _ | HRedirectFragment _ _ => 302
  | _ => 200
  end.

(** The endpoints that a user visits with a browser. *)
Definition for_users (e : endpoint) : Prop := e = EAuthorize \/ e = EDevice.

(** Responses that carry a token or what is known of one. *)
Definition carries_token (resp : http_response) : Prop :=
  match resp with HToken _ _ _ _ _ | HDoc _ => True | _ => False end.
