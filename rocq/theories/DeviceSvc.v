(** * server/services/device *)

From Verif Require Export AuthzSvc.

Section DeviceSvc.
Context (E : ext).

Definition dfail (e : oerror) : dev_response := mkDevRes true (Some e) "" "" 0 0 "".

(** service.go:56-138 Authorize *)
Definition dev_authorize_svc (req : option dev_request) : prog dev_response :=
  match req with
  | None => Ret (dfail (err invalid_request))
  | Some req =>
      if is_empty (dr_issuer req) then Ret (dfail (err invalid_request))
      else if is_empty (dr_client_id req) then Ret (dfail (err invalid_request))
      else
        client_get (dr_client_id req) (fun r =>
        match r with
        | SErr | SNotFound => Ret (dfail (err invalid_request))
        | SNil => Ret (dfail (err invalid_client))
        | SOk c =>
            if negb (has E (cl_grant_types c) gt_device)
            then Ret (dfail (err unsupported_grant_type))
            else
              gen (CGenDev (dr_issuer req)) (fun g =>
              match g with
              | None => Ret (dfail (err server_error))
              | Some dc =>
                  gen (CGenUser (dr_issuer req)) (fun g =>
                  match g with
                  | None => Ret (dfail (err server_error))
                  | Some uc =>
                      let s := mkDev (Some c) (dr_issuer req) 0 (Some req) DsUnspecified dc
                                 None (dr_scope req) (dr_audience req) in
                      reg (CDevReg (dr_issuer req) uc s) (fun r =>
                      if is_ok r
                      then Ret (mkDevRes false None dc uc (num r) 5 (dr_issuer req))
                      else Ret (dfail (err server_error)))
                  end)
              end)
        end)
  end.

Definition vfail (e : oerror) : dev_validation_response := mkDevValRes true (Some e).

(** service.go:204-206: session.Subject = ..., session.Status = VALIDATED *)
Definition approve (s : devsession) (subject : string) : devsession :=
  mkDev (ds_client s) (ds_issuer s) (ds_expires_at s) (ds_request s) DsValidated
    (ds_device_code s) (Some subject) (ds_scope s) (ds_audience s).

(** service.go:140-222 Validate.  The Go code updates the session it was handed
    in place before calling storage; here the update becomes visible to others
    with the storage call. *)
Definition dev_validate_svc (req : option dev_validation_request) : prog dev_validation_response :=
  match req with
  | None => Ret (vfail (err invalid_request))
  | Some req =>
      if is_empty (vv_issuer req) then Ret (vfail (err invalid_request))
      else if is_empty (vv_user_code req) then Ret (vfail (err invalid_request))
      else if is_empty (vv_subject req) then Ret (vfail (err invalid_request))
      else
        dev_get (CDevGetUser (vv_issuer req) (vv_user_code req)) (fun r =>
        match r with
        | SErr => Ret (vfail (err server_error))
        | SNotFound => Ret (vfail (err invalid_request))
        | SNil => Ret (vfail (err invalid_request))
        | SOk s =>
            match ds_request s, ds_client s with
            | Some _, Some _ =>
                now (fun t =>
                if (ds_expires_at s <? unix t)%N then Ret (vfail (err token_expired))
                else
                  match ds_status s with
                  | DsPending =>
                      write (CDevVal (vv_issuer req) (vv_user_code req) (approve s (vv_subject req)))
                        (fun r =>
                      if is_ok r then
                        write (CDevDel (vv_issuer req) (vv_user_code req)) (fun r =>
                        if is_ok r then Ret (mkDevValRes false None)
                        else Ret (vfail (err server_error)))
                      else Ret (vfail (err server_error)))
                  | _ => Ret (vfail (err invalid_request))
                  end)
            | _, _ => Ret (vfail (err invalid_request))
            end
        end)
  end.

End DeviceSvc.
