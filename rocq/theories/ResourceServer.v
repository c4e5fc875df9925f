(** * examples/resourceserver/middleware.go *)

From Verif Require Export Client Http.

(** middleware.go:21-26 *)
Record identity := mkIdentity {
  id_subject : string; id_client : string; id_auth_time : option N; id_acr : option string
}.

(** middleware.go:28-37: intent, client, subjects. *)
Definition permissions := string -> option (string -> option (list string)).

Inductive rs_response := RsNext | RsStatus (status : N).

(** strings.SplitN(s, " ", 2): the part before the first space and, if there is one, what
    follows it. *)
Fixpoint split_space (s : string) : string * option string :=
  match s with
  | EmptyString => (EmptyString, None)
  | String a r =>
      if Ascii.eqb a " " then (EmptyString, Some r)
      else let '(x, y) := split_space r in (String a x, y)
  end.

Section ResourceServer.
Context (E : ext).
(** strings.ToLower *)
Context (lower : string -> string).
Context (perms : permissions).

(** middleware.go:39-53 *)
Definition can (id : identity) (intent : string) : bool :=
  match perms intent with
  | None => false
  | Some clients =>
      match clients (id_client id) with
      | None => false
      | Some subjects => contains (x_fold E) subjects (id_subject id)
      end
  end.

(** The client.Client used by the middleware: Assertion() and Introspect(assertion, token);
    [None] is an error.  Introspect may panic. *)
Context (assertion : option string) (introspect : string -> string -> outcome (option rs_token)).

(** middleware.go:79-89 and 131-140 *)
Definition identity_of (t : rs_token) : prog (option identity) :=
  match rt_meta t with
  | None => Panic
  | Some m => Ret (Some (mkIdentity (rm_subject m) (rm_client_id m) (rm_auth_time m) (rm_acr m)))
  end.

(** middleware.go:57-90; [None] is an error. *)
Definition authenticate_bearer (r : http_request) : prog (option identity) :=
  let '(scheme, value) := split_space (hq_header r "Authorization") in
  if negb (equal_fold (x_fold E) scheme "bearer") then Ret None
  else
    match assertion with
    | None => Ret None
    | Some a =>
        match value with
        | None => Panic                               (* parts[1] *)
        | Some v =>
            match introspect a v with
            | Crashed => Panic
            | Done None => Ret None
            | Done (Some t) =>
                if negb (rt_active t) then Ret None
                else
                  match rt_cnf t with
                  | Some _ => Ret None
                  | None => identity_of t
                  end
            end
        end
    end.

(** middleware.go:92-141 *)
Definition authenticate_dpop (r : http_request) : prog (option identity) :=
  let '(scheme, value) := split_space (hq_header r "Authorization") in
  if negb (equal_fold (x_fold E) scheme "dpop") then Ret None
  else
    match value with
    | None => Panic                                   (* parts[1] *)
    | Some v =>
        bind (dpop_verify E (hq_method r) (url_of r) (hq_header r "DPoP") (Some v) None) (fun jkt =>
        match jkt with
        | None => Ret None
        | Some jkt =>
            match assertion with
            | None => Ret None
            | Some a =>
                match introspect a v with
                | Crashed => Panic
                | Done None => Ret None
                | Done (Some t) =>
                    if negb (rt_active t) then Ret None
                    else
                      match rt_cnf t with
                      | None => Ret None
                      | Some cnf => if negb (secure_compare jkt cnf) then Ret None else identity_of t
                      end
                end
            end
        end)
    end.

(** middleware.go:175-200: what follows authentication. *)
Definition check_acr (intent : string) (acr : list string) (id : identity) : rs_response :=
  let refused :=
    match acr, id_acr id with
    | _ :: _, Some a => negb (contains (x_fold E) acr a)
    | _, _ => false
    end in
  if refused then RsStatus 401
  else if negb (can id intent) then RsStatus 403
  else RsNext.
Definition check_context (intent : string) (acr : list string) (max_age : N) (id : identity) : prog rs_response :=
  match id_auth_time id with
  | Some at_ =>
      if (0 <? max_age)%N then
        now (fun t => if (max_age <? sub64 (unix t) at_)%N then Ret (RsStatus 401) else Ret (check_acr intent acr id))
      else Ret (check_acr intent acr id)
  | None => Ret (check_acr intent acr id)
  end.

(** middleware.go:143-202 Authorizer *)
Definition authorizer (intent : string) (acr : list string) (max_age : N) (r : http_request) : prog rs_response :=
  let header := hq_header r "Authorization" in
  let finish := fun id : option identity =>
    match id with None => Ret (RsStatus 401) | Some id => check_context intent acr max_age id end in
  if is_empty header then Ret (RsStatus 401)
  else if String.prefix "bearer" (lower header) then bind (authenticate_bearer r) finish
  else if String.prefix "dpop" (lower header) then bind (authenticate_dpop r) finish
  else Ret (RsStatus 400).

End ResourceServer.
