(** * sdk/token: the claims that generators sign

    A serializer (sdk/token/api.go:58-64) is a function from the claims to the
    serialized token, [None] when it fails.  Clock readings are arguments, in
    seconds, in the order in which they are taken. *)

From Verif Require Export Prog Jwk.

(** go-ozzo is.URL and is.PrintableASCII on a non-empty string. *)
Record checks := mkChecks { ck_url : string -> bool; ck_ascii : string -> bool }.

(** The claims structures of access_token.go:68-89 and refresh_token.go:68-89. *)
Record jwt_claims := mkJwtClaims {
  jc_iss : string; jc_sub : string; jc_aud : string;
  jc_exp : N; jc_nbf : N; jc_iat : N;
  jc_jti : string; jc_client_id : string; jc_scope : string;
  jc_cnf : option string
}.

(** JSON documents built as map[string]any. *)
Inductive jval := JBool (b : bool) | JStr (s : string) | JNum (n : N) | JObj (o : list (string * jval)).
Definition doc := list (string * jval).

Section Claims.
Context (K : checks).

(** validation.Required and a string rule. *)
Definition str_ok (rule : string -> bool) (s : string) : bool := negb (is_empty s) && rule s.
(** validation.Required, Min(lo), Max(hi) *)
Definition num_ok (lo hi x : N) : bool := negb (x =? 0)%N && (lo <=? x)%N && (x <=? hi)%N.

(** access_token.go:109-134 and refresh_token.go:103-128 validateMeta; [max] is the
    longest lifetime in seconds.  The conversions between uint64 and int64 are
    exact for times up to now, which iat must be. *)
Definition meta_valid (max now : N) (m : token_meta) : bool :=
  str_ok (ck_ascii K) (m_audience m)
  && str_ok (ck_url K) (m_issuer m)
  && str_ok (ck_ascii K) (m_subject m)
  && str_ok (ck_ascii K) (m_client_id m)
  && str_ok (ck_ascii K) (m_scope m)
  && num_ok 0 now (m_issued_at m)
  && num_ok (m_issued_at m) (m_expires_at m) (m_not_before m)
  && num_ok (m_issued_at m) (m_issued_at m + max) (m_expires_at m).

(** The literal of access_token.go:79-89 and refresh_token.go:79-89. *)
Definition claims_literal (id : string) (m : token_meta) (cnf : option string) : jwt_claims :=
  mkJwtClaims (m_issuer m) (m_subject m) (m_audience m) (m_expires_at m) (m_not_before m)
    (m_issued_at m) id (m_client_id m) (m_scope m) cnf.

Definition two_hours : N := 7200.
Definition two_weeks : N := 1209600.

(** access_token.go:47-105 Generate *)
Definition access_token_generate (ser : option (jwt_claims -> option string)) (t : option token) (now : N)
  : option string :=
  match ser with
  | None => None
  | Some ser =>
      match t with
      | None => None
      | Some t =>
          if is_empty (t_id t) then None
          else
            match t_meta t with
            | None => None
            | Some m =>
                if negb (meta_valid two_hours now m) then None
                else ser (claims_literal (t_id t) m (t_cnf t))
            end
      end
  end.

(** refresh_token.go:47-99 Generate: the confirmation is left out. *)
Definition refresh_token_generate (ser : option (jwt_claims -> option string)) (t : option token) (now : N)
  : option string :=
  match ser with
  | None => None
  | Some ser =>
      match t with
      | None => None
      | Some t =>
          if is_empty (t_id t) then None
          else
            match t_meta t with
            | None => None
            | Some m =>
                if negb (meta_valid two_weeks now m) then None
                else ser (claims_literal (t_id t) m None)
            end
      end
  end.

(** client_assertion.go:98-125 validateMeta *)
Definition assertion_meta_valid (now : N) (m : token_meta) : bool :=
  str_ok (ck_url K) (m_audience m)
  && str_ok (ck_ascii K) (m_issuer m)
  && str_ok (ck_ascii K) (m_subject m)
  && num_ok 0 now (m_issued_at m)
  && num_ok (m_issued_at m) (m_issued_at m + two_hours) (m_expires_at m)
  && String.eqb (m_subject m) (m_issuer m).

(** client_assertion.go:48-94 Generate.  The claims are those decoded by the
    authenticator (structure [claims] of Types.v). *)
Definition client_assertion_generate (ser : option (claims -> option string)) (t : option token) (now : N)
  : option string :=
  match ser with
  | None => None
  | Some ser =>
      match t with
      | None => None
      | Some t =>
          if is_empty (t_id t) then None
          else
            match t_meta t with
            | None => None
            | Some m =>
                if negb (assertion_meta_valid now m) then None
                else ser (mkClaims (m_issuer m) (m_subject m) (m_audience m) (t_id t)
                            (m_expires_at m) (m_not_before m) (m_issued_at m) None "" "" None)
            end
      end
  end.

End Claims.

(** helpers.go:27-47 IsUsable *)
Definition is_usable (t : option token) (now : N) : bool :=
  match t with
  | None => false
  | Some t =>
      match t_meta t with
      | None => false
      | Some m =>
          if (m_expires_at m <? now)%N then false
          else if (now <? m_not_before m)%N then false
          else true
      end
  end.

Definition is_active (s : token_status) : bool := match s with TsActive => true | _ => false end.

(** introspection.go:57-70: the introspection member. *)
Definition introspection_body (t : token) (m : token_meta) (now : N) : doc :=
  let active := is_active (t_status t) && is_usable (Some t) now in
  ("active", JBool active) ::
  if active then
    [("iss", JStr (m_issuer m)); ("aud", JStr (m_audience m)); ("iat", JNum (m_issued_at m));
     ("exp", JNum (m_expires_at m)); ("client_id", JStr (m_client_id m)); ("scope", JStr (m_scope m));
     ("sub", JStr (m_subject m)); ("jti", JStr (t_id t))]
  else [].

(** introspection.go:44-86 Generate; [now1] is read by IsUsable, [now2] for iat. *)
Definition introspection_generate (ser : option (doc -> option string)) (t : option token) (now1 now2 : N)
  : option string :=
  match ser with
  | None => None
  | Some ser =>
      match t with
      | None => None
      | Some t =>
          match t_meta t with
          | None => None
          | Some m =>
              ser [("iss", JStr (m_issuer m)); ("iat", JNum now2);
                   ("token_introspection", JObj (introspection_body t m now1))]
          end
      end
  end.

(** encrypted.go:42-65 Serialize: sign, then encrypt what was signed. *)
Definition encrypted_serialize {A} (ser : option (A -> option string))
    (encrypt : option (string -> string -> string -> option string)) (content_type : string) (c : A)
  : option string :=
  match ser, encrypt with
  | Some ser, Some encrypt =>
      match ser c with
      | None => None
      | Some signed => encrypt content_type signed "urn:solid:token:sign-and-encrypt"
      end
  | _, _ => None
  end.
