(** * Vocabulary for the statements about what is bound to succeed *)

From Verif Require Export Spec.

(** The request revokes the token that is looked up in slot [key], or refreshes with it. *)
Definition uses_up (E : ext) (r : request) (key : string) : Prop :=
  match r with
  | RRevoke (Some q) => tok_key E (vq_issuer q) (vq_token q) = key
  | RToken (Some q) => exists value, tq_grant q = GRefreshToken value /\ tok_key E (tq_issuer q) value = key
  | _ => False
  end.

(** ** Authorization requests *)

(** The response mode a request stands for: "jwt" is short for the JWT mode of its response type. *)
Definition meant_mode (r : authreq) : option string :=
  match ar_response_mode r with
  | None => None
  | Some m => Some (if String.eqb m "jwt" then
                      if String.eqb (ar_response_type r) "code" then "query.jwt" else "fragment.jwt"
                    else m)
  end%string.

(** The request has all required parameters, with values the server knows. *)
Definition well_formed (E : ext) (r : authreq) : Prop :=
  (32 <= String.length (ar_state r))%nat /\ (8 <= String.length (ar_nonce r))%nat /\
  ar_code_challenge_method r = "S256"%string /\ String.length (ar_code_challenge r) = 43%nat /\
  (ar_response_type r = "code"%string \/ ar_response_type r = "token"%string) /\
  ar_redirect_uri r <> ""%string /\ x_request_uri E (ar_redirect_uri r) = true /\
  ar_scope r <> ""%string /\ ar_client_id r <> ""%string /\ ar_audience r <> ""%string /\
  (forall m, ar_response_mode r = Some m ->
     In m ["query"; "fragment"; "form_post"; "jwt"; "query.jwt"; "fragment.jwt"; "form_post.jwt"]%string).

(** The client registered everything the request asks for. *)
Definition permitted (E : ext) (c : client) (r : authreq) : Prop :=
  listed E (cl_grant_types c) "authorization_code" /\
  listed E (cl_response_types c) (ar_response_type r) /\
  listed E (cl_redirect_uris c) (ar_redirect_uri r) /\
  (forall m, meant_mode r = Some m -> listed E (cl_response_modes c) m).

(** The code and request_uri generators did not fail for request [k]. *)
Definition codes_work (h : list event) (k : nat) : Prop :=
  forall i a, In (EvCall k (CGenCode i) a) h \/ In (EvCall k (CGenURI i) a) h -> exists v, a = AGen (Some v).
