(** * server/services/authorization *)

From Verif Require Export Prog TokenSvc.

Section AuthzSvc.
Context (E : ext).

(** service.go:37-41 *)
Definition min_nonce : nat := 8.
Definition min_state : nat := 32.
Definition challenge_length : nat := 43.

(** oidc/const.go: response types, response modes, prompt *)
Definition rt_code := "code".
Definition rt_token := "token".
Definition rm_query := "query".
Definition rm_fragment := "fragment".
Definition rm_form_post := "form_post".
Definition rm_jwt := "jwt".
Definition rm_query_jwt := "query.jwt".
Definition rm_fragment_jwt := "fragment.jwt".
Definition rm_form_post_jwt := "form_post.jwt".
Definition prompt_consent := "consent".

Definition str_in (s : string) (l : list string) : bool := existsb (String.eqb s) l.

Definition response_modes : list string :=
  [rm_query; rm_fragment; rm_form_post; rm_jwt; rm_form_post_jwt; rm_query_jwt; rm_fragment_jwt].

(** service.go:291-299: expansion of the jwt alias. *)
Definition expand_mode (rt : string) (m : option string) : option string :=
  match m with
  | None => None
  | Some m =>
      if String.eqb m rm_jwt then
        if String.eqb rt rt_code then Some rm_query_jwt
        else if String.eqb rt rt_token then Some rm_fragment_jwt
        else Some m
      else Some m
  end.

(** service.go:302-322: the scope after removal of offline_access. *)
Definition clean_scope (scope : string) (prompt : option string) : string :=
  let scopes := fields scope in
  if has E scopes scope_openid then
    let scopes' :=
      if has E scopes scope_offline then
        match prompt with
        | None => remove_first (x_fold E) scopes scope_offline
        | Some p =>
            if String.eqb p prompt_consent then scopes
            else remove_first (x_fold E) scopes scope_offline
        end
      else scopes in
    join_sp scopes'
  else scope.

(** service.go:243-322: the checks and rewriting that need no storage.  The Go
    code rewrites the request in place; here the rewritten request is returned. *)
Definition validate_local (r : authreq) : oerror + authreq :=
  let bad := inl (err_st invalid_request (ar_state r)) in
  if is_empty (ar_state r) then inl (err invalid_request)
  else if Nat.ltb (String.length (ar_state r)) min_state then bad
  else if is_empty (ar_scope r) || is_empty (ar_response_type r) || is_empty (ar_client_id r)
       || is_empty (ar_redirect_uri r) || is_empty (ar_code_challenge r)
       || is_empty (ar_code_challenge_method r) || is_empty (ar_audience r)
       || is_empty (ar_nonce r) then bad
  else if Nat.ltb (String.length (ar_nonce r)) min_nonce then bad
  else if negb (String.eqb (ar_code_challenge_method r) s256) then bad
  else if negb (Nat.eqb (String.length (ar_code_challenge r)) challenge_length) then bad
  else if negb (x_request_uri E (ar_redirect_uri r)) then bad
  else if negb (str_in (ar_response_type r) [rt_code; rt_token]) then bad
  else if match ar_response_mode r with
          | None => false
          | Some m => negb (str_in m response_modes)
          end then bad
  else
    let r := set_response_mode r (expand_mode (ar_response_type r) (ar_response_mode r)) in
    inr (set_scope r (clean_scope (ar_scope r) (ar_prompt r))).

(** service.go:328-363 validateClientCapabilities, on the client that was read. *)
Definition check_client (c : client) (r : authreq) : option oerror :=
  if negb (has E (cl_grant_types c) gt_code)
  then Some (err_st unsupported_grant_type (ar_state r))
  else if negb (has E (cl_response_types c) (ar_response_type r))
  then Some (err_st invalid_request (ar_state r))
  else if negb (has E (cl_redirect_uris c) (ar_redirect_uri r))
  then Some (err_st invalid_request (ar_state r))
  else
    match ar_response_mode r with
    | None => None
    | Some m =>
        if negb (has E (cl_response_modes c) m)
        then Some (err_st invalid_request (ar_state r))
        else None
    end.

(** service.go:237-363 validate *)
Definition validate (r : option authreq) : prog (oerror + authreq) :=
  match r with
  | None => Ret (inl (err invalid_request))
  | Some r =>
      match validate_local r with
      | inl e => Ret (inl e)
      | inr r =>
          client_get (ar_client_id r) (fun res =>
          match res with
          | SErr => Ret (inl (err_st server_error (ar_state r)))
          | SNotFound => Ret (inl (err_st invalid_request (ar_state r)))
          | SNil => Panic                             (* client.GrantTypes with client == nil *)
          | SOk c =>
              match check_client c r with
              | Some e => Ret (inl e)
              | None => Ret (inr r)
              end
          end)
      end
  end.

Definition zfail (e : oerror) : authorize_response :=
  mkAuthzRes true (Some e) "" "" "" "" 0 "" "".

(** The value of a write that returns a lifetime; a nil error with no value is 0. *)
Definition num (r : sres N) : N := match r with SOk n => n | _ => 0%N end.

(** service.go:124-162: validation, code generation and session registration. *)
Definition authorize_with (issuer subject : string) (r : option authreq) : prog authorize_response :=
  bind (validate r) (fun v =>
  match v with
  | inl e => Ret (zfail e)
  | inr r =>
      gen (CGenCode issuer) (fun g =>
      match g with
      | None => Ret (zfail (err_st server_error (ar_state r)))
      | Some code =>
          reg (CSessReg issuer code (mkSess issuer subject (Some r))) (fun res =>
          if is_ok res then
            Ret (mkAuthzRes false None code (ar_state r) (ar_redirect_uri r) (ar_client_id r)
                   (num res) issuer "")
          else Ret (zfail (err_st server_error (ar_state r))))
      end)
  end).

(** service.go:64-163 Authorize.  [None] is a nil request. *)
Definition authorize_svc (req : option authorize_request) : prog authorize_response :=
  match req with
  | None => Ret (zfail (err invalid_request))
  | Some req =>
      match zq_request req with
      | None => Ret (zfail (err invalid_request))
      | Some r =>
          if is_empty (zq_issuer req) then Ret (zfail (err invalid_request))
          else if is_empty (zq_subject req) then Ret (zfail (err invalid_request))
          else
            match ar_request_uri r with
            | None => authorize_with (zq_issuer req) (zq_subject req) (Some r)
            | Some uri =>
                if negb (x_uri_valid E uri) then Ret (zfail (err invalid_request))
                else
                  req_get (zq_issuer req) uri (fun res =>
                  match res with
                  | SErr => Ret (zfail (err server_error))
                  | SNotFound => Ret (zfail (err invalid_request))
                  | SOk _ | SNil =>
                      let ar := match res with SOk ar => Some ar | _ => None end in
                      write (CReqDel (zq_issuer req) uri) (fun d =>
                      match d with
                      | SErr => Ret (zfail (err server_error))
                      | SNotFound => Ret (zfail (err invalid_request))
                      | SOk _ | SNil => authorize_with (zq_issuer req) (zq_subject req) ar
                      end)
                  end)
            end
      end
  end.

Definition gfail (e : oerror) : registration_response :=
  mkRegRes true (Some e) "" 0 "".

(** service.go:165-232 Register *)
Definition register_svc (req : option registration_request) : prog registration_response :=
  match req with
  | None => Ret (gfail (err invalid_request))
  | Some req =>
      if is_empty (gq_issuer req) then Ret (gfail (err invalid_request))
      else
        match gq_client req, gq_request req with
        | None, _ => Ret (gfail (err invalid_request))
        | _, None => Ret (gfail (err invalid_request))
        | Some c, Some r =>
            match ar_request_uri r with
            | Some _ => Ret (gfail (err invalid_request))
            | None =>
                bind (validate (Some r)) (fun v =>
                match v with
                | inl e => Ret (gfail e)
                | inr r =>
                    if negb (String.eqb (ar_client_id r) (cl_id c))
                    then Ret (gfail (err invalid_request))
                    else
                      gen (CGenURI (gq_issuer req)) (fun g =>
                      match g with
                      | None => Ret (gfail (err server_error))
                      | Some uri =>
                          reg (CReqReg (gq_issuer req) uri r) (fun res =>
                          if is_ok res then
                            Ret (mkRegRes false None uri (num res) (gq_issuer req))
                          else Ret (gfail (err server_error)))
                      end)
                end)
            end
        end
  end.

End AuthzSvc.
