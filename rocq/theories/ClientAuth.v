(** * server/clientauthentication *)

From Verif Require Export Prog TokenSvc Jwk.

Section ClientAuth.
Context (E : ext).

(** oidc/const.go: client assertion types *)
Definition assertion_bearer := "urn:ietf:params:oauth:client-assertion-type:jwt-bearer".
Definition assertion_attestation := "urn:ietf:params:oauth:client-assertion-type:jwt-client-attestation".

Definition afail (e : oerror) : auth_response := mkAuthnRes false true (Some e) None.
(** return nil, err *)
Definition afail_nil : auth_response := mkAuthnRes true true None None.
Definition aok (c : option client) : auth_response := mkAuthnRes false false None c.

(** The checks on client_assertion_type and client_assertion shared by
    private_key_jwt.go:67-83 and client_attestation.go:61-77. *)
Definition assertion_of (kind : string) (req : auth_request) : option string :=
  match aq_type req with
  | None => None
  | Some t =>
      if negb (String.eqb t kind) then None
      else
        match aq_assertion req with
        | None => None
        | Some a => if is_empty a then None else Some a
        end
  end.

(** private_key_jwt.go:58-148 Authenticate *)
Definition private_key_jwt (req : option auth_request) : prog auth_response :=
  match req with
  | None => Ret (afail (err invalid_request))
  | Some req =>
      match assertion_of assertion_bearer req with
      | None => Ret (afail (err invalid_request))
      | Some a =>
          if negb (x_parse_jose E a) then Ret (afail (err invalid_request))
          else
            match x_payload E KAssertion a with
            | None => Ret (afail (err invalid_request))
            | Some cl =>
                if is_empty (c_iss cl) || is_empty (c_sub cl) || is_empty (c_aud cl)
                   || is_empty (c_jti cl) || (c_exp cl =? 0)%N
                then Ret (afail (err invalid_request))
                else if negb (String.eqb (c_iss cl) (c_sub cl))
                then Ret (afail (err invalid_request))
                else
                  now (fun t =>
                  if (c_exp cl <? unix t)%N then Ret (afail (err invalid_request))
                  else
                    client_get (c_iss cl) (fun r =>
                    match r with
                    | SErr => Ret (afail (err server_error))
                    | SNotFound => Ret (afail (err invalid_client))
                    | SNil => Panic                    (* client.Jwks with client == nil *)
                    | SOk c =>
                        if is_empty (cl_jwks c) then Ret (afail (err invalid_client))
                        else
                          match x_jwks E (cl_jwks c) with
                          | None => Ret (afail (err invalid_client))
                          | Some keys =>
                              if validate_signature E keys a then Ret (aok (Some c))
                              else Ret (afail (err invalid_client))
                          end
                    end))
            end
      end
  end.

(** strings.SplitN(s, "~", 2) when it yields two parts. *)
Fixpoint split_tilde (s : string) : option (string * string) :=
  match s with
  | EmptyString => None
  | String a r =>
      if Ascii.eqb a "~" then Some (EmptyString, r)
      else
        match split_tilde r with
        | None => None
        | Some (x, y) => Some (String a x, y)
        end
  end.

(** client_attestation.go:137-188 validateClientAttestation: the confirmation key
    of the attestation.  [None] is an error, [Some None] a nil key. *)
Definition validate_attestation (a : string) : prog (option (option jwk)) :=
  if negb (x_parse_jose E a) then Ret None
  else
    match x_payload E KAttestation a with
    | None => Ret None
    | Some cl =>
        match c_cnf_jwk cl with
        | None => Ret None
        | Some key =>
            if is_empty (c_iss cl) || is_empty (c_sub cl) || (c_exp cl =? 0)%N then Ret None
            else
              now (fun t1 =>
              if (c_exp cl <? unix t1)%N then Ret None
              else
                now (fun t2 =>
                if (unix t2 <? c_nbf cl)%N then Ret None
                else
                  client_get (c_iss cl) (fun r =>
                  match r with
                  | SErr | SNotFound => Ret None
                  | SNil => Panic
                  | SOk c =>
                      if is_empty (cl_jwks c) then Ret None
                      else
                        match x_jwks E (cl_jwks c) with
                        | None => Ret None
                        | Some keys =>
                            if validate_signature E keys a then Ret (Some key) else Ret None
                        end
                  end)))
        end
    end.

(** client_attestation.go:58-133 Authenticate.  Unlike private_key_jwt it does not
    test for a nil request.  Verifying with a nil key dereferences it (go-jose
    newVerifier, outside the repository). *)
Definition client_attestation (req : option auth_request) : prog auth_response :=
  match req with
  | None => Panic
  | Some req =>
      match assertion_of assertion_attestation req with
      | None => Ret (afail (err invalid_request))
      | Some a =>
          match split_tilde a with
          | None => Ret (afail (err invalid_request))
          | Some (att, pop) =>
              bind (validate_attestation att) (fun v =>
              match v with
              | None => Ret (afail (err unauthorized_client))
              | Some key =>
                  if negb (x_parse_pop E pop) then Ret (afail (err invalid_request))
                  else
                      match key with
                      | None => Panic
                      | Some k =>
                          match token_claims E KPop k pop with
                          | None => Ret afail_nil
                          | Some cl =>
                              if is_empty (c_iss cl) || (c_exp cl =? 0)%N || is_empty (c_jti cl)
                                 || is_empty (c_aud cl)
                              then Ret afail_nil
                              else
                                now (fun t1 =>
                                if (c_exp cl <? unix t1)%N then Ret afail_nil
                                else
                                  now (fun t2 =>
                                  if (unix t2 <? c_nbf cl)%N then Ret afail_nil
                                  else
                                    client_get (c_iss cl) (fun r =>
                                    match r with
                                    | SErr => Ret (afail (err server_error))
                                    | SNotFound => Ret (afail (err invalid_client))
                                    | SNil => Ret (aok None)
                                    | SOk c => Ret (aok (Some c))
                                    end)))
                          end
                      end
              end)
          end
      end
  end.

End ClientAuth.
