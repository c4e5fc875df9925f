(** * server/services/token *)

From Verif Require Import Prog.

Section TokenSvc.
Context (E : ext).

Definition has (l : list string) (x : string) : bool := contains (x_fold E) l x.

(** sdk/rfcerrors/errors.go and builder.go:67-85: [State(s).Build()] sets the
    state only when it is not empty. *)
Definition err (code : string) : oerror := mkErr code None.
Definition err_st (code state : string) : oerror :=
  mkErr code (if is_empty state then None else Some state).

Definition invalid_request := "invalid_request".
Definition invalid_client := "invalid_client".
Definition invalid_grant := "invalid_grant".
Definition server_error := "server_error".
Definition unsupported_grant_type := "unsupported_grant_type".
Definition invalid_token := "invalid_token".
Definition token_expired := "token_expired".
Definition authorization_pending := "authorization_pending".
Definition unauthorized_client := "unauthorized_client".
Definition invalid_target := "invalid_target".
Definition invalid_dpop_proof := "invalid_dpop_proof".

(** oidc/const.go:24-45 and 155 *)
Definition gt_code := "authorization_code".
Definition gt_cc := "client_credentials".
Definition gt_device := "urn:ietf:params:oauth:grant-type:device_code".
Definition gt_refresh := "refresh_token".
Definition gt_exchange := "urn:ietf:params:oauth:grant-type:token-exchange".
Definition scope_openid := "openid".
Definition scope_offline := "offline_access".
Definition at_type := "urn:ietf:params:oauth:token-type:access_token".
Definition s256 := "S256".

(** A response that carries an error: res.Error = e; return res, err. *)
Definition tfail (e : oerror) : token_response :=
  mkTokRes true (Some e) None None None "" None None.
(** return res, err with res.Error left nil. *)
Definition tfail_silent : token_response :=
  mkTokRes true None None None None "" None None.
(** return res, nil with the given tokens. *)
Definition tok (at_ rt : option token) : token_response :=
  mkTokRes false None at_ rt None "" None None.

(** generator.go:41-57 and 83-99: the token specification.  [nbf] is now+1 and
    the expiry is computed by the callers.  AddDate(0,0,7) is taken in UTC, i.e.
    as 7*24 hours. *)
Definition token_spec (ty : token_type) (id : string) (cid : string) (meta : token_meta)
    (cnf : option string) (iat nbf exp : N) : token :=
  mkToken "" ty id
    (Some (mkMeta (m_issuer meta) (m_subject meta) iat nbf exp cid (m_scope meta) (m_audience meta)))
    TsActive "" cnf.

Definition hour : N := 3600 * second.
Definition week : N := 7 * 24 * hour.
Definition minute : N := 60 * second.

(** generator.go:37-77 generateAccessToken.  [None] is a non-nil Go error. *)
Definition generate_access_token (cid : string) (meta : token_meta) (cnf : option string)
  : prog (option token) :=
  now (fun t =>
  rand 8 (fun jti =>
  let at_ := token_spec TtAccess jti cid meta cnf (unix t) (unix t + 1) (unix (t + hour)) in
  gen (CGenAT at_) (fun r =>
  match r with
  | None => Ret None
  | Some v =>
      if is_empty v then Ret None
      else
        write (CTokCreate (m_issuer meta) (set_value at_ v)) (fun r =>
        if is_ok r then Ret (Some (set_value at_ v)) else Ret None)
  end))).

(** generator.go:79-119 generateRefreshToken. *)
Definition generate_refresh_token (cid : string) (meta : token_meta) (cnf : option string)
  : prog (option token) :=
  now (fun t =>
  rand 8 (fun jti =>
  let rt := token_spec TtRefresh jti cid meta cnf (unix t) (unix t + 1) (unix (t + week)) in
  gen (CGenRT rt) (fun r =>
  match r with
  | None => Ret None
  | Some v =>
      if is_empty v then Ret None
      else
        write (CTokCreate (m_issuer meta) (set_value rt v)) (fun r =>
        if is_ok r then Ret (Some (set_value rt v)) else Ret None)
  end))).

(** The TokenMeta literals built by the grant functions; time stamps and client
    are filled in by the generators. *)
Definition mk_meta (issuer subject scope audience : string) : token_meta :=
  mkMeta issuer subject 0 0 0 "" scope audience.

Definition opt_str (o : option string) : string :=
  match o with None => "" | Some s => s end.

(** The common prologue of the five grant functions: client nil, issuer blank,
    issuer not a URL (grant_client_credentials.go:38-62,
    grant_authorization_code.go:50-73, grant_refresh_token.go:40-63,
    grant_device_code.go:42-65, grant_token_exchange.go:43-68).  The checks for a
    nil request are not repeated: [Token] has already dereferenced it. *)
Definition prologue (c : option client) (req : token_request)
    (k : client -> prog token_response) : prog token_response :=
  match c with
  | None => Ret (tfail (err server_error))
  | Some c =>
      if is_empty (tq_issuer req) then Ret (tfail (err server_error))
      else if negb (x_request_uri E (tq_issuer req)) then Ret (tfail (err server_error))
      else k c
  end.

(** grant_client_credentials.go:33-102 *)
Definition client_credentials (c : option client) (req : token_request) : prog token_response :=
  match tq_grant req with
  | GClientCredentials =>
      prologue c req (fun c =>
      match cl_type c with
      | CtConfidential | CtCredentialed =>
          if negb (has (cl_grant_types c) gt_cc) then Ret (tfail (err unsupported_grant_type))
          else
            let meta := mk_meta (tq_issuer req) "" (opt_str (tq_scope req)) (opt_str (tq_audience req)) in
            bind (generate_access_token (cl_id c) meta (tq_cnf req)) (fun r =>
            match r with
            | None => Ret (tfail (err server_error))
            | Some at_ => Ret (tok (Some at_) None)
            end)
      | _ => Ret (tfail (err invalid_client))
      end)
  | _ => Ret (tfail (err server_error))
  end.

(** grant_authorization_code.go:38-42 *)
Definition max_code_length : nat := 1024.
Definition min_verifier_length : nat := 43.
Definition max_verifier_length : nat := 128.

(** grant_authorization_code.go:127-193: what follows the deletion of the session. *)
Definition redeem_session (c : client) (req : token_request) (s : acsession) (ar : authreq)
    (redirect_uri verifier : string) : prog token_response :=
  if negb (String.eqb (ar_redirect_uri ar) redirect_uri)
  then Ret (tfail (err_st invalid_grant (ar_state ar)))
  else if negb (has (cl_redirect_uris c) redirect_uri)
  then Ret (tfail (err_st invalid_grant (ar_state ar)))
  else if negb (String.eqb (ar_code_challenge_method ar) s256)
  then Ret (tfail (err_st invalid_grant (ar_state ar)))
  else if negb (String.eqb (b64url (x_sha256 E verifier)) (ar_code_challenge ar))
  then Ret (tfail (err_st invalid_grant (ar_state ar)))
  else
    let scopes := fields (ar_scope ar) in
    if has scopes scope_openid then
      let meta := mk_meta (tq_issuer req) (as_subject s) (ar_scope ar) (ar_audience ar) in
      bind (generate_access_token (cl_id c) meta (tq_cnf req)) (fun r =>
      match r with
      | None => Ret (tfail (err server_error))
      | Some at_ =>
          if has scopes scope_offline then
            bind (generate_refresh_token (cl_id c) meta (t_cnf at_)) (fun r =>
            match r with
            | None => Ret (tfail (err server_error))
            | Some rt => Ret (tok (Some at_) (Some rt))
            end)
          else Ret (tok (Some at_) None)
      end)
    else Ret (tok None None).

(** grant_authorization_code.go:45-193 *)
Definition authorization_code (c : option client) (req : token_request) : prog token_response :=
  match tq_grant req with
  | GAuthorizationCode code redirect_uri verifier =>
      prologue c req (fun c =>
      if negb (has (cl_grant_types c) gt_code) then Ret (tfail (err unsupported_grant_type))
      else if is_empty code || is_empty verifier || is_empty redirect_uri
      then Ret (tfail (err invalid_grant))
      else if Nat.ltb max_code_length (rune_count code) then Ret (tfail (err invalid_grant))
      else if Nat.ltb (String.length verifier) min_verifier_length
      then Ret (tfail (err invalid_grant))
      else if Nat.ltb max_verifier_length (String.length verifier)
      then Ret (tfail (err invalid_grant))
      else
        sess_get (tq_issuer req) code (fun r =>
        match r with
        | SErr => Ret (tfail (err server_error))
        | SNotFound => Ret (tfail (err invalid_grant))
        | SNil => Panic                            (* ar.Request with ar == nil *)
        | SOk s =>
            match as_request s with
            | None => Ret (tfail (err invalid_grant))
            | Some ar =>
                write (CSessDel (tq_issuer req) code) (fun r =>
                if is_ok r then redeem_session c req s ar redirect_uri verifier
                else Ret (tfail (err server_error)))
            end
        end))
  | _ => Ret (tfail (err server_error))
  end.

(** grant_refresh_token.go:35-144 *)
Definition refresh_token (c : option client) (req : token_request) : prog token_response :=
  match tq_grant req with
  | GRefreshToken value =>
      prologue c req (fun c =>
      if is_empty value then Ret (tfail (err invalid_request))
      else if negb (has (cl_grant_types c) gt_refresh)
      then Ret (tfail (err unsupported_grant_type))
      else
        tok_get (tq_issuer req) value (fun r =>
        match r with
        | SErr => Ret (tfail (err server_error))
        | SNotFound => Ret (tfail (err invalid_request))
        | SNil => Panic
        | SOk rt =>
            match t_status rt, t_type rt, t_meta rt with
            | TsActive, TtRefresh, Some meta =>
                now (fun t =>
                if (m_expires_at meta <? unix t)%N then Ret (tfail (err invalid_request))
                else if negb (String.eqb (m_client_id meta) (cl_id c))
                then Ret (tfail (err invalid_request))
                else
                  bind (generate_access_token (cl_id c) meta (t_cnf rt)) (fun r =>
                  match r with
                  | None => Ret (tfail (err server_error))
                  | Some at_ =>
                      let at_exp := match t_meta at_ with Some m => m_expires_at m | None => 0%N end in
                      if (m_expires_at meta <? at_exp)%N then
                        bind (generate_refresh_token (cl_id c) meta (t_cnf at_)) (fun r =>
                        match r with
                        | None => Ret (tfail (err server_error))
                        | Some new_rt =>
                            write (CTokRevoke (tq_issuer req) (t_id rt)) (fun r =>
                            if is_ok r then Ret (tok (Some at_) (Some new_rt))
                            else Ret (tfail (err server_error)))
                        end)
                      else Ret (tok (Some at_) None)
                  end))
            | TsActive, TtRefresh, None => Ret (tfail (err server_error))
            | _, _, _ => Ret (tfail (err invalid_request))
            end
        end))
  | _ => Ret (tfail (err server_error))
  end.

(** grant_device_code.go:37-175 *)
Definition device_code (c : option client) (req : token_request) : prog token_response :=
  match tq_grant req with
  | GDeviceCode code =>
      prologue c req (fun c =>
      if negb (has (cl_grant_types c) gt_device) then Ret (tfail (err unsupported_grant_type))
      else if is_empty code then Ret (tfail (err invalid_request))
      else
        dev_get (CDevGetDev (tq_issuer req) code) (fun r =>
        match r with
        | SErr => Ret (tfail (err server_error))
        | SNotFound => Ret (tfail (err invalid_request))
        | SNil => Ret (tfail (err server_error))
        | SOk s =>
            match ds_request s, ds_client s with
            | Some dr, Some _ =>
                if negb (String.eqb (dr_client_id dr) (cl_id c))
                then Ret (tfail (err invalid_request))
                else
                  now (fun t =>
                  if (ds_expires_at s <? unix t)%N then Ret (tfail (err token_expired))
                  else
                    match ds_status s with
                    | DsPending => Ret (tfail (err authorization_pending))
                    | DsValidated =>
                        match ds_subject s with
                        | None => Ret (tfail (err server_error))
                        | Some sub =>
                            let meta := mk_meta (tq_issuer req) sub (opt_str (ds_scope s)) "" in
                            bind (generate_access_token (cl_id c) meta (tq_cnf req)) (fun r =>
                            match r with
                            | None => Ret (tfail (err server_error))
                            | Some at_ =>
                                match ds_scope s with
                                | Some scope =>
                                    if has (fields scope) scope_offline then
                                      bind (generate_refresh_token (cl_id c) meta (t_cnf at_)) (fun r =>
                                      match r with
                                      | None => Ret (tfail (err server_error))
                                      | Some rt => Ret (tok (Some at_) (Some rt))
                                      end)
                                    else Ret (tok (Some at_) None)
                                | None => Ret (tok (Some at_) None)
                                end
                            end)
                        end
                    | _ => Ret (tfail (err invalid_token))
                    end)
            | _, _ => Ret (tfail (err server_error))
            end
        end))
  | _ => Ret (tfail (err server_error))
  end.

(** grant_token_exchange.go:104-220 tokenExchangeAccessToken, from the point where
    the subject token was accepted: L192-219. *)
Definition exchange_issue (req : token_request) (st_issuer st_scope : string) (at_ : token)
    (scope : string) : prog token_response :=
  gen (CGenAT at_) (fun r =>
  match r with
  | None => Ret tfail_silent
  | Some v =>
      if is_empty v then Ret tfail_silent
      else
        write (CTokCreate (tq_issuer req) (set_value at_ v)) (fun r =>
        if is_ok r then
          Ret (mkTokRes false None (Some (set_value at_ v)) None None st_issuer (Some at_type)
                 (if String.eqb st_scope scope then None else Some scope))
        else Ret tfail_silent)
  end).

(** grant_token_exchange.go:104-220 *)
Definition exchange_access_token (c : client) (req : token_request) (subject_token : string)
  : prog token_response :=
  tok_get (tq_issuer req) subject_token (fun r =>
  match r with
  | SErr => Ret (tfail (err server_error))
  | SNotFound => Ret (tfail (err invalid_request))
  | SNil => Panic
  | SOk st =>
      match t_status st, t_type st, t_meta st with
      | TsActive, TtAccess, Some meta =>
          now (fun t0 =>
          if (m_expires_at meta <? unix t0)%N then Ret (tfail (err invalid_request))
          else
            let scope := match tq_scope req with Some s => s | None => m_scope meta end in
            now (fun t =>
            rand 8 (fun jti =>
            let spec aud :=
              mkToken "" TtAccess jti
                (Some (mkMeta (m_issuer meta) (m_subject meta) (unix t) 0 (unix (t + minute))
                         (cl_id c) scope aud))
                TsActive "" (t_cnf st) in
            match tq_audience req with
            | None => exchange_issue req (m_issuer meta) (m_scope meta) (spec "") scope
            | Some urn =>
                res_get urn (fun r =>
                match r with
                | SNotFound => Ret tfail_silent
                | SErr | SNil => Panic              (* aud.Urn with aud == nil *)
                | SOk aud => exchange_issue req (m_issuer meta) (m_scope meta) (spec aud) scope
                end)
            end)))
      | TsActive, TtAccess, None => Ret (tfail (err server_error))
      | _, _, _ => Ret (tfail (err invalid_request))
      end
  end).

(** grant_token_exchange.go:39-102 *)
Definition token_exchange (c : option client) (req : token_request) : prog token_response :=
  match tq_grant req with
  | GTokenExchange subject_token subject_token_type =>
      prologue c req (fun c =>
      if is_empty subject_token_type then Ret (tfail (err invalid_request))
      else if is_empty subject_token then Ret (tfail (err invalid_request))
      else if negb (has (cl_grant_types c) gt_exchange)
      then Ret (tfail (err unsupported_grant_type))
      else if String.eqb subject_token_type at_type
      then exchange_access_token c req subject_token
      else Ret (tfail (err invalid_request)))
  | _ => Ret (tfail (err server_error))
  end.

(** validator.go:30-77 validateRequest, on a non-nil request; [None] is no error.
    A request whose grant does not match its grant_type is an invalid_grant. *)
Definition grant_matches (gt : string) (g : grant) : bool :=
  if String.eqb gt gt_code then match g with GAuthorizationCode _ _ _ => true | _ => false end
  else if String.eqb gt gt_cc then match g with GClientCredentials => true | _ => false end
  else if String.eqb gt gt_device then match g with GDeviceCode _ => true | _ => false end
  else if String.eqb gt gt_refresh then match g with GRefreshToken _ => true | _ => false end
  else if String.eqb gt gt_exchange then match g with GTokenExchange _ _ => true | _ => false end
  else false.

Definition validate_request (req : token_request) : option oerror :=
  if is_empty (tq_issuer req) then Some (err server_error)
  else
    match tq_client req with
    | None => Some (err invalid_client)
    | Some _ => if grant_matches (tq_grant_type req) (tq_grant req) then None else Some (err invalid_grant)
    end.

(** The client a storage read yields: nil when it returned nil, nil. *)
Definition dispatch (c : option client) (req : token_request) : prog token_response :=
  let gt := tq_grant_type req in
  if String.eqb gt gt_cc then client_credentials c req
  else if String.eqb gt gt_code then authorization_code c req
  else if String.eqb gt gt_device then device_code c req
  else if String.eqb gt gt_refresh then refresh_token c req
  else if String.eqb gt gt_exchange then token_exchange c req
  else Ret (tfail (err invalid_grant)).

(** service.go:59-99 Token.  [None] is a nil request. *)
Definition token_svc (req : option token_request) : prog token_response :=
  match req with
  | None => Ret (tfail (err invalid_request))
  | Some req =>
      match validate_request req with
      | Some e => Ret (tfail e)
      | None =>
          let cid := match tq_client req with Some c => cl_id c | None => "" end in
          client_get cid (fun r =>
          match r with
          | SErr => Ret (tfail (err server_error))
          | SNotFound => Ret (tfail (err invalid_client))
          | SNil => dispatch None req
          | SOk c => dispatch (Some c) req
          end)
      end
  end.

(** introspection.go:31-89 Introspect *)
Definition ifail (e : oerror) : introspect_response := mkIntro true (Some e) None.

Definition introspect_svc (req : option value_request) : prog introspect_response :=
  match req with
  | None => Ret (ifail (err invalid_request))
  | Some req =>
      if is_empty (vq_issuer req) then Ret (ifail (err invalid_request))
      else if negb (x_request_uri E (vq_issuer req)) then Ret (ifail (err invalid_request))
      else
        match vq_client req with
        | None => Ret (ifail (err invalid_client))
        | Some c =>
            if is_empty (vq_token req) then Ret (ifail (err invalid_request))
            else
              client_get (cl_id c) (fun r =>
              match r with
              | SErr => Ret (ifail (err server_error))
              | SNotFound => Ret (ifail (err invalid_client))
              | SOk _ | SNil =>
                  tok_get (vq_issuer req) (vq_token req) (fun r =>
                  match r with
                  | SErr => Ret (ifail (err server_error))
                  | SNotFound =>
                      Ret (mkIntro false None
                             (Some (mkToken (vq_issuer req) TtUnspecified "" None TsUnknown
                                      (vq_token req) None)))
                  | SNil => Ret (mkIntro false None None)
                  | SOk t => Ret (mkIntro false None (Some t))
                  end)
              end)
        end
  end.

(** revoke.go:30-81 Revoke *)
Definition rfail (e : oerror) : revoke_response := mkRevoke true (Some e).

Definition revoke_svc (req : option value_request) : prog revoke_response :=
  match req with
  | None => Ret (rfail (err invalid_request))
  | Some req =>
      if is_empty (vq_issuer req) then Ret (rfail (err invalid_request))
      else if negb (x_request_uri E (vq_issuer req)) then Ret (rfail (err invalid_request))
      else
        match vq_client req with
        | None => Ret (rfail (err invalid_client))
        | Some c =>
            if is_empty (vq_token req) then Ret (rfail (err invalid_request))
            else
              client_get (cl_id c) (fun r =>
              match r with
              | SErr => Ret (rfail (err server_error))
              | SNotFound => Ret (rfail (err invalid_client))
              | SOk _ | SNil =>
                  tok_get (vq_issuer req) (vq_token req) (fun r =>
                  match r with
                  | SErr | SNotFound => Ret (mkRevoke true None)
                  | SNil => Panic
                  | SOk t =>
                      write (CTokRevoke (vq_issuer req) (t_id t)) (fun r =>
                      if is_ok r then Ret (mkRevoke false None) else Ret (mkRevoke true None))
                  end)
              end)
        end
  end.

End TokenSvc.
