(** * Vocabulary of the property statements

    Small definitions, independent of the service code, used to state the
    properties. *)

From Verif Require Export System.

(** Equality of strings up to case folding of their runes. *)
Definition fold_eq (fold : N -> N) (x y : string) : Prop := map fold (runes x) = map fold (runes y).

(** [x] is a member of [l] up to case folding. *)
Definition listed (E : ext) (l : list string) (x : string) : Prop :=
  exists y, In y l /\ fold_eq (x_fold E) x y.

(** The space separated scope string contains [s]. *)
Definition asks (E : ext) (scope s : string) : Prop := listed E (fields scope) s.

(** Every client is registered under its own id. *)
Definition registry_ok (w : world) : Prop := forall id c, w_clients w id = Some c -> cl_id c = id.

(** The client a token request was authenticated for. *)
Definition by_client (req : token_request) (id : string) : Prop :=
  exists c, tq_client req = Some c /\ cl_id c = id.

(** Request [i] of the history asked [r] (it may not have ended yet). *)
Definition asked (h : list event) (i : nat) (r : request) : Prop := In (EvStart i r) h.

(** Request [i] asked [r] and was answered [p]. *)
Definition answered (h : list event) (i : nat) (r : request) (p : response) : Prop :=
  In (EvStart i r) h /\ In (EvDone i (Done p)) h.

(** A successful token request. *)
Definition token_ok (h : list event) (i : nat) (req : token_request) (res : token_response) : Prop :=
  answered h i (RToken (Some req)) (PToken res) /\ tr_err res = false.

(** The request presents an authorization code. *)
Definition presents_code (req : token_request) (issuer code : string) : Prop :=
  tq_issuer req = issuer /\ exists redirect verifier, tq_grant req = GAuthorizationCode code redirect verifier.

(** A call whose Go error was nil. *)
Definition call_ok (h : list event) (i : nat) (c : call) : Prop :=
  (exists u, In (EvCall i c (AUnit (SOk u))) h) \/ (exists n, In (EvCall i c (ANum (SOk n))) h).

(** No token exists yet. *)
Definition no_tokens (w : world) : Prop :=
  (forall id, w_tid w id = None) /\ (forall v, w_tval w v = None).

(** No identifier and no (issuer, value) slot is used for two tokens. *)
Definition no_reuse (E : ext) (h : list event) : Prop :=
  forall h1 i iss t a h2 j iss' t' a' h3,
    h = (h1 ++ EvCall i (CTokCreate iss t) a :: h2 ++ EvCall j (CTokCreate iss' t') a' :: h3)%list ->
    t_id t <> t_id t' /\ tok_key E iss (t_value t) <> tok_key E iss' (t_value t').

(** Nothing is stored yet. *)
Definition blank (w : world) : Prop :=
  no_tokens w /\ (forall k, w_sess w k = None) /\ (forall k, w_req w k = None) /\
  (forall k, w_devu w k = None) /\ (forall k, w_devd w k = None) /\ (forall k, w_proof w k = None).

(** What a store may do to a new device session: fill in its expiry and mark it pending. *)
Definition stamp_ok (w : world) : Prop :=
  forall t s, exists exp st, (st = ds_status s \/ st = DsPending) /\
    w_stamp w t s = mkDev (ds_client s) (ds_issuer s) exp (ds_request s) st (ds_device_code s)
                      (ds_subject s) (ds_scope s) (ds_audience s).

(** Time that passes during a history (nanoseconds). *)
Fixpoint elapsed (h : list event) : N :=
  match h with
  | [] => 0
  | EvTick d :: h => d + elapsed h
  | _ :: h => elapsed h
  end.

(** The answer of a write reports success. *)
Definition ans_ok (a : answer) : bool :=
  match a with AUnit r => is_ok r | ANum r => is_ok r | _ => false end.

(** The slot of a code is rewritten (registered again, or deleted) with success.
    Slots are keyed by a hash of issuer and code. *)
Definition code_rewritten (E : ext) (h : list event) (issuer code : string) : Prop :=
  exists j c a, In (EvCall j c a) h /\ ans_ok a = true /\
    ((exists iss' code' s, c = CSessReg iss' code' s /\ sess_key E iss' code' = sess_key E issuer code) \/
     (exists iss' code', c = CSessDel iss' code' /\ sess_key E iss' code' = sess_key E issuer code)).

(** The same for the slot of a pushed request. *)
Definition uri_rewritten (E : ext) (h : list event) (issuer uri : string) : Prop :=
  exists j c a, In (EvCall j c a) h /\ ans_ok a = true /\
    ((exists iss' uri' s, c = CReqReg iss' uri' s /\ req_key E iss' uri' = req_key E issuer uri) \/
     (exists iss' uri', c = CReqDel iss' uri' /\ req_key E iss' uri' = req_key E issuer uri)).

(** At the end of [h], the authorization behind [code] of [issuer] is [ar], given by
    [subject]: an Authorize request for [subject] stored it in the slot where that code is
    looked up, at most 60 seconds ago, and the slot has not been rewritten since. *)
Definition authorized (E : ext) (h : list event) (issuer code subject : string) (ar : authreq) : Prop :=
  exists h1 k q code' a h2,
    h = (h1 ++ EvCall k (CSessReg (zq_issuer q) code' (mkSess (zq_issuer q) subject (Some ar))) a :: h2)%list /\
    In (EvStart k (RAuthorize (Some q))) h1 /\ zq_subject q = subject /\
    sess_key E (zq_issuer q) code' = sess_key E issuer code /\
    (elapsed h2 <= 60 * second)%N /\ ~ code_rewritten E h2 issuer code.

(** In [h], some Authorize request stores an authorization in the slot of [code]: the
    server hands out that code. *)
Definition handed_out (E : ext) (h : list event) (issuer code : string) : Prop :=
  exists k iss' code' s a, In (EvCall k (CSessReg iss' code' s) a) h /\
    sess_key E iss' code' = sess_key E issuer code.

(** In [h], a revocation of the token with identifier [id] succeeds. *)
Definition revoked_in (h : list event) (id : string) : Prop :=
  exists j iss a, In (EvCall j (CTokRevoke iss id) a) h /\ ans_ok a = true.

(** In history [h], token [t] was stored in the slot where [value] of [issuer] is looked
    up (slots are keyed by a hash of issuer and value). *)
Definition stored_as (E : ext) (h : list event) (issuer value : string) (t : token) : Prop :=
  exists k iss' a, In (EvCall k (CTokCreate iss' t) a) h /\
    tok_key E iss' (t_value t) = tok_key E issuer value.

(** The same, and [t] was not revoked afterwards. *)
Definition live_as (E : ext) (h : list event) (issuer value : string) (t : token) : Prop :=
  exists h1 k iss' a h2, h = (h1 ++ EvCall k (CTokCreate iss' t) a :: h2)%list /\
    tok_key E iss' (t_value t) = tok_key E issuer value /\ ~ revoked_in h2 (t_id t).

(** In history [h], the device session behind [code] of [issuer] was started by the device
    authorization request [dq] and approved by a user for [subject], at a time that is not
    after [expiry] (seconds).  Slots are keyed by hashes of issuer and code. *)
Definition device_approved (E : ext) (h : list event) (issuer code : string) (dq : dev_request)
    (subject : string) (expiry : N) : Prop :=
  exists d user_code s0 a k q s a' t,
    asked h d (RDevAuthorize (Some dq)) /\
    In (EvCall d (CDevReg (dr_issuer dq) user_code s0) a) h /\
    device_key E (dr_issuer dq) (ds_device_code s0) = device_key E issuer code /\
    asked h k (RDevValidate (Some q)) /\ vv_subject q = subject /\
    user_key E (dr_issuer dq) user_code = user_key E (vv_issuer q) (vv_user_code q) /\
    In (EvCall k CNow (ATime t)) h /\ (unix t <= expiry)%N /\
    In (EvCall k (CDevVal (vv_issuer q) (vv_user_code q) s) a') h /\
    ds_device_code s = ds_device_code s0 /\ ds_issuer s = dr_issuer dq /\ ds_subject s = Some subject /\
    ds_expires_at s = expiry.

(** The request presents this refresh token / subject token. *)
Definition presents_refresh (req : token_request) (issuer value : string) : Prop :=
  tq_issuer req = issuer /\ tq_grant req = GRefreshToken value.
Definition presents_subject (req : token_request) (issuer value : string) : Prop :=
  tq_issuer req = issuer /\ exists ty, tq_grant req = GTokenExchange value ty.

(** The clock (nanoseconds) at the end of a history that starts in [w]. *)
Definition clock (w : world) (h : list event) : N := (w_now w + elapsed h)%N.

(** All tokens of a response. *)
Definition tokens_of (res : token_response) : list token :=
  (match tr_at res with Some t => [t] | None => [] end ++
   match tr_rt res with Some t => [t] | None => [] end ++
   match tr_idt res with Some t => [t] | None => [] end)%list.

(** The environment injects no storage failure. *)
Definition no_faults (xs : list sched) : Prop :=
  Forall (fun x => match x with SStep _ o => o_fault o = FNone | _ => True end) xs.

(** The value of an optional field, empty when absent. *)
Definition given (o : option string) : string := match o with Some s => s | None => "" end.

(** The registration of the client a token request was authenticated for. *)
Definition client_of (w : world) (req : token_request) (c : client) : Prop :=
  exists auth, tq_client req = Some auth /\ w_clients w (cl_id auth) = Some c.

(** No two clients registered the same redirect URI (up to case). *)
Definition redirects_apart (E : ext) (w : world) : Prop :=
  forall id1 id2 c1 c2 u1 u2, w_clients w id1 = Some c1 -> w_clients w id2 = Some c2 ->
    In u1 (cl_redirect_uris c1) -> In u2 (cl_redirect_uris c2) -> fold_eq (x_fold E) u1 u2 -> id1 = id2.

(** Request [i] is running at the end of [h1] or later in the history [h1 ++ h2]. *)
Definition during (h1 : list event) (i : nat) (r : request) : Prop := In (EvStart i r) h1.

(** ** Failures of the services *)

(** The Go error of the answer is not nil. *)
Definition failed (p : response) : bool :=
  match p with
  | PToken r => tr_err r
  | PIntrospect r => ir_err r
  | PRevoke r => rr_err r
  | PAuthorize r => zr_err r
  | PRegister r => gr_err r
  | PDevAuthorize r => dv_err r
  | PDevValidate r => vr_err r
  | PAuthn r => aa_err r
  | PDpop r => match r with None => true | Some _ => false end
  end.

(** The public error object of the answer. *)
Definition public_error (p : response) : option oerror :=
  match p with
  | PToken r => tr_error r
  | PIntrospect r => ir_error r
  | PRevoke r => rr_error r
  | PAuthorize r => zr_error r
  | PRegister r => gr_error r
  | PDevAuthorize r => dv_error r
  | PDevValidate r => vr_error r
  | PAuthn r => aa_error r
  | PDpop _ => None
  end.

(** A storage read answered a nil value without an error. *)
Definition nil_read (a : answer) : bool :=
  match a with
  | AClient SNil | ARes SNil | ASess SNil | AReq SNil | ADev SNil | ATok SNil => true
  | _ => false
  end.

(** The token, introspection, revocation, authorization and device services. *)
Definition oauth_service (r : request) : Prop :=
  match r with
  | RToken _ | RIntrospect _ | RRevoke _ | RAuthorize _ | RRegister _ | RDevAuthorize _ | RDevValidate _ => True
  | _ => False
  end.

(** ** Device sessions *)

(** A store that, unlike the in-memory one, fills in expiry and status of device sessions. *)
Definition stamping (ttl : N) (t : N) (s : devsession) : devsession :=
  mkDev (ds_client s) (ds_issuer s) (unix t + ttl) (ds_request s) DsPending (ds_device_code s)
    (ds_subject s) (ds_scope s) (ds_audience s).

(** No two requests register a device session in the same slot. *)
Definition device_codes_apart (E : ext) (h : list event) : Prop :=
  forall d1 i1 u1 s1 a1 d2 i2 u2 s2 a2,
    In (EvCall d1 (CDevReg i1 u1 s1) a1) h -> In (EvCall d2 (CDevReg i2 u2 s2) a2) h ->
    user_key E (ds_issuer s1) u1 = user_key E (ds_issuer s2) u2 \/
    device_key E (ds_issuer s1) (ds_device_code s1) = device_key E (ds_issuer s2) (ds_device_code s2) ->
    d1 = d2.

(** The generators work for request [i]: they return non-empty values. *)
Definition generators_work (h : list event) (i : nat) : Prop :=
  forall t a, In (EvCall i (CGenAT t) a) h \/ In (EvCall i (CGenRT t) a) h ->
    exists v, a = AGen (Some v) /\ v <> ""%string.

(** ** Where subjects come from *)

(** In [h], [subject] authorized a client, or approved a device. *)
Definition consented (h : list event) (subject : string) : Prop :=
  (exists k q code s a, In (EvStart k (RAuthorize (Some q))) h /\ zq_subject q = subject /\
     In (EvCall k (CSessReg (zq_issuer q) code s) a) h /\ as_subject s = subject) \/
  (exists k q s a, In (EvStart k (RDevValidate (Some q))) h /\ vv_subject q = subject /\
     In (EvCall k (CDevVal (vv_issuer q) (vv_user_code q) s) a) h /\ ds_subject s = Some subject).

(** ** Authorization requests *)

(** [b] is [a] up to the scope and the response mode. *)
Definition same_parameters (a b : authreq) : Prop :=
  ar_response_type b = ar_response_type a /\ ar_client_id b = ar_client_id a /\
  ar_redirect_uri b = ar_redirect_uri a /\ ar_state b = ar_state a /\ ar_nonce b = ar_nonce a /\
  ar_prompt b = ar_prompt a /\ ar_request b = ar_request a /\ ar_request_uri b = ar_request_uri a /\
  ar_code_challenge b = ar_code_challenge a /\ ar_code_challenge_method b = ar_code_challenge_method a /\
  ar_audience b = ar_audience a /\ ar_other b = ar_other a.

(** What becomes of a request that is accepted: the response mode "jwt" is spelled out, and the
    scope may lose "offline_access" when openid is asked without prompt=consent. *)
Definition normalized (E : ext) (a b : authreq) : Prop :=
  same_parameters a b /\
  ar_response_mode b = match ar_response_mode a with
    | None => None
    | Some m => Some (if String.eqb m "jwt" then
                        if String.eqb (ar_response_type a) "code" then "query.jwt" else "fragment.jwt"
                      else m)
    end /\
  (forall s, ~ fold_eq (x_fold E) "offline_access" s -> asks E (ar_scope b) s <-> asks E (ar_scope a) s) /\
  (asks E (ar_scope b) "offline_access" -> asks E (ar_scope a) "offline_access") /\
  (ar_prompt a = Some "consent"%string \/ ~ asks E (ar_scope a) "openid" ->
     forall s, asks E (ar_scope b) s <-> asks E (ar_scope a) s).

(** The request that Authorize call number [k] works on: the one it was given, or the one that
    is stored under the request_uri it was given. *)
Definition effective (h : list event) (k : nat) (q : authorize_request) (eff : authreq) : Prop :=
  exists r0, zq_request q = Some r0 /\
    ((ar_request_uri r0 = None /\ eff = r0) \/
     exists uri, ar_request_uri r0 = Some uri /\
       In (EvCall k (CReqGet (zq_issuer q) uri) (AReq (SOk eff))) h).

(** The scope names [s] more than once. *)
Definition asks_twice (E : ext) (scope s : string) : Prop :=
  exists l1 a l2 b l3, fields scope = (l1 ++ a :: l2 ++ b :: l3)%list /\
    fold_eq (x_fold E) s a /\ fold_eq (x_fold E) s b.

(** A successful Authorize call. *)
Definition authorize_ok_at (h : list event) (i : nat) (q : authorize_request) (res : authorize_response) : Prop :=
  answered h i (RAuthorize (Some q)) (PAuthorize res) /\ zr_err res = false.

(** In [h], a pushed request is stored in the slot of [uri]. *)
Definition uri_handed_out (E : ext) (h : list event) (issuer uri : string) : Prop :=
  exists k iss' uri' s a, In (EvCall k (CReqReg iss' uri' s) a) h /\
    req_key E iss' uri' = req_key E issuer uri.

(** ** Issuers *)

(** The hash used for storage keys has no collisions. *)
Definition collision_free (E : ext) : Prop := forall k x y, x_blake E k x = x_blake E k y -> x = y.

(** [a] is a proper prefix of [b]. *)
Definition proper_prefix (a b : string) : Prop := exists c, c <> ""%string /\ b = (a ++ c)%string.

(** The issuer a request is sent to. *)
Definition issuer_of (r : request) : option string :=
  match r with
  | RToken (Some q) => Some (tq_issuer q)
  | RIntrospect (Some q) | RRevoke (Some q) => Some (vq_issuer q)
  | RAuthorize (Some q) => Some (zq_issuer q)
  | RRegister (Some q) => Some (gq_issuer q)
  | RDevAuthorize (Some q) => Some (dr_issuer q)
  | RDevValidate (Some q) => Some (vv_issuer q)
  | _ => None
  end.

(** No issuer used in [h] is a proper prefix of another one. *)
Definition issuers_apart (h : list event) : Prop :=
  forall i r a j r' b, asked h i r -> issuer_of r = Some a -> asked h j r' -> issuer_of r' = Some b ->
    ~ proper_prefix a b.

(** [t] was created with value [value] by a token request sent to [issuer], and names it. *)
Definition issued_at (h : list event) (issuer value : string) (t : token) : Prop :=
  exists k req m a, asked h k (RToken (Some req)) /\ tq_issuer req = issuer /\
    In (EvCall k (CTokCreate issuer t) a) h /\ t_value t = value /\ t_meta t = Some m /\ m_issuer m = issuer.

(** Request [j] is answered at most [d] nanoseconds after it was received. *)
Definition takes_at_most (h : list event) (j : nat) (d : N) : Prop :=
  forall g1 r g2 o g3, h = (g1 ++ EvStart j r :: g2 ++ EvDone j o :: g3)%list -> (elapsed g2 <= d)%N.

(** DPoP verification number [i] accepts, with this thumbprint. *)
Definition dpop_accepts (h : list event) (i : nat) (htm htu proof : string) (tv tc : option string) (thumb : string) : Prop :=
  answered h i (RDpop htm htu proof tv tc) (PDpop (Some thumb)).

(** The id under which a proof with these claims is registered. *)
Definition proof_id (E : ext) (cl : claims) : string := b64url (x_blake E "" (c_jti cl)).

(** Client authentication number [i] succeeds for client [c]. *)
Definition authenticates (h : list event) (i : nat) (r : request) (c : client) : Prop :=
  exists res, answered h i r (PAuthn res) /\ aa_err res = false /\ aa_client res = Some c.
