(** * server/storage/inmemory

    Each storage operation is one atomic step on a [world].  go-cache and sync.Map
    are libraries outside the repository; their maps are modelled as functions. *)

From Verif Require Export Prog.

(** ** Maps *)

Definition fmap (A : Type) := string -> option A.
Definition empty {A} : fmap A := fun _ => None.
Definition upd {A} (m : fmap A) (k : string) (v : option A) : fmap A :=
  fun k' => if String.eqb k' k then v else m k'.

(** go-cache: a value with its expiry (nanoseconds).  Get returns an item unless
    now > Expiration; the janitor that purges expired items every 10 minutes
    removes only items that Get would not return, so it is not modelled. *)
Definition cache (A : Type) := fmap (A * N).

Definition cache_get {A} (now : N) (m : cache A) (k : string) : option A :=
  match m k with
  | None => None
  | Some (v, exp) => if (exp <? now)%N then None else Some v
  end.

Definition cache_set {A} (now ttl : N) (m : cache A) (k : string) (v : A) : cache A :=
  upd m k (Some (v, now + ttl)%N).

(** ** Keys *)

Section Keys.
Context (E : ext).

(** The hash keys of authorization_code_session.go:76, authorization_request.go:76,
    device_code_session.go:99 and 113, token.go:124 (string literals in Go
    back quotes; "" is an escaped double quote here). *)
Definition sess_secret := "Sj%u-#$yVfdaHE/@e-=2""MI<T];#tr'{|udMFn.@4abjM({8L'|j]{G2ecDK[W2""".
Definition req_secret := "!|XH/CNMA8WSlN*;*UKL!0tW[CU17EB4A.a)[WZbvKSl;F?G#PxjijvtFWS0C=T".
Definition dev_secret := "bA(0Kq#UT>42Va[MEFs[M%owo8|jiTbf!SVr1h0RaT~$a6?L\rqeB$q>fSDLz0:".
Definition tok_secret := "%JwQL_C=w^R@9?{J,=;LHe=&n0L1P{QrS=MsA}7H]V3fHd8&$noL&""hZH;&Uw)3".

(** deriveKey and its siblings: hex(blake2b-256(secret, label ++ issuer ++ code)). *)
Definition derive (secret label issuer code : string) : string :=
  hex (x_blake E secret (label ++ issuer ++ code)%string).

(** authorization_code_session.go:74-86 *)
Definition sess_key := derive sess_secret "solid:authorization-code-sessions:v1".
(** authorization_request.go:74-86 *)
Definition req_key := derive req_secret "solid:authorization-requests:v1".
(** device_code_session.go:97-109 *)
Definition user_key := derive dev_secret "solid:device-authorization-user-code:v1".
(** device_code_session.go:111-123 *)
Definition device_key := derive dev_secret "solid:device-authorization-device-code:v1".
(** token.go:122-134 *)
Definition tok_key := derive tok_secret "solid:token:v1".
End Keys.

(** ** State *)

Record world := mkWorld {
  w_now : N;                         (* wall clock, nanoseconds *)
  w_clients : fmap client;           (* client.go:32-170; the services only read it *)
  w_resources : fmap string;         (* resource.go:31-48, URN *)
  w_stamp : N -> devsession -> devsession; (* see [CDevReg] below *)
  w_sess : cache acsession;
  w_req : cache authreq;
  w_devu : cache devsession;
  w_devd : cache devsession;
  w_proof : cache unit;
  w_tid : fmap token;                (* token.go idIndex *)
  w_tval : fmap token                (* token.go valueIndex *)
}.

Definition with_now w t := mkWorld t (w_clients w) (w_resources w) (w_stamp w) (w_sess w) (w_req w)
  (w_devu w) (w_devd w) (w_proof w) (w_tid w) (w_tval w).
Definition with_sess w m := mkWorld (w_now w) (w_clients w) (w_resources w) (w_stamp w) m (w_req w)
  (w_devu w) (w_devd w) (w_proof w) (w_tid w) (w_tval w).
Definition with_req w m := mkWorld (w_now w) (w_clients w) (w_resources w) (w_stamp w) (w_sess w) m
  (w_devu w) (w_devd w) (w_proof w) (w_tid w) (w_tval w).
Definition with_dev w mu md := mkWorld (w_now w) (w_clients w) (w_resources w) (w_stamp w) (w_sess w)
  (w_req w) mu md (w_proof w) (w_tid w) (w_tval w).
Definition with_proof w m := mkWorld (w_now w) (w_clients w) (w_resources w) (w_stamp w) (w_sess w)
  (w_req w) (w_devu w) (w_devd w) m (w_tid w) (w_tval w).
Definition with_tok w mi mv := mkWorld (w_now w) (w_clients w) (w_resources w) (w_stamp w) (w_sess w)
  (w_req w) (w_devu w) (w_devd w) (w_proof w) mi mv.

(** inmemory: nothing stored yet, the given client registry, the resources of
    resource.go:31-48. *)
Definition example_resources : fmap string :=
  upd (upd empty "urn:example:cooperation-context" (Some "urn:example:cooperation-context"))
    "urn:example:backend-api" (Some "urn:example:backend-api").

Definition init_world (now : N) (clients : fmap client) : world :=
  mkWorld now clients example_resources (fun _ s => s) empty empty empty empty empty empty empty.

(** ** Failures

    The in-memory store never fails, but the storage interfaces allow it, so the
    environment may make any single operation fail: before taking effect, after
    taking effect, with ErrNotFound, or (for a read) with a nil value. *)
Inductive fault := FNone | FBefore | FAfter | FNotFound | FNil.

Record orc := mkOrc { o_fault : fault; o_str : option string }.

Definition ok : orc := mkOrc FNone None.
Definition say (s : string) : orc := mkOrc FNone (Some s).

Definition answer_read {A} (f : fault) (v : option A) : sres A :=
  match f with
  | FNone => match v with Some v => SOk v | None => SNotFound end
  | FBefore | FAfter => SErr
  | FNotFound => SNotFound
  | FNil => SNil
  end.

(** Result of a write and the state after it. *)
Definition do_write {A} (f : fault) (w w' : world) (v : A) : sres A * world :=
  match f with
  | FNone | FNil => (SOk v, w')
  | FBefore => (SErr, w)
  | FAfter => (SErr, w')
  | FNotFound => (SNotFound, w)
  end.

(** ** One storage step *)

Section Exec.
Context (E : ext).

(** token.go:47-64 Create: the stored copy holds the hashed value. *)
Definition hashed (issuer : string) (t : token) : token :=
  set_value t (tok_key E issuer (t_value t)).

(** token.go:59-60 and 113-114: stores in both indexes. *)
Definition store_token (w : world) (t : token) : world :=
  with_tok w (upd (w_tid w) (t_id t) (Some t)) (upd (w_tval w) (t_value t) (Some t)).

(** token.go:88-100 Delete (no service calls it). *)
Definition delete_token (w : world) (id : string) : option world :=
  match w_tid w id with
  | None => None
  | Some t => Some (with_tok w (upd (w_tid w) (t_id t) None) (upd (w_tval w) (t_value t) None))
  end.

Definition session_ttl : N := 60 * second.   (* cache.New(1*time.Minute, ...) *)
Definition device_ttl : N := 120 * second.   (* cache.New(2*time.Minute, ...) *)

(** device_code_session.go:51-58 and 86-93: both indexes, under the issuer found in
    the session. *)
Definition store_device (w : world) (user_code : string) (s : devsession) : world :=
  with_dev w
    (cache_set (w_now w) device_ttl (w_devu w) (user_key E (ds_issuer s) user_code) s)
    (cache_set (w_now w) device_ttl (w_devd w) (device_key E (ds_issuer s) (ds_device_code s)) s).

Definition exec (w : world) (o : orc) (c : call) : answer * world :=
  let f := o_fault o in
  match c with
  | CNow => (ATime (w_now w), w)
  | CRand _ => (AStr (match o_str o with Some s => s | None => "" end), w)
  | CGenAT _ | CGenRT _ | CGenCode _ | CGenURI _ | CGenDev _ | CGenUser _ => (AGen (o_str o), w)
  (* client.go:174-183 Get *)
  | CClientGet id => (AClient (answer_read f (w_clients w id)), w)
  (* resource.go:52-61 GetByURI *)
  | CResGet urn => (ARes (answer_read f (w_resources w urn)), w)
  (* authorization_code_session.go:62-70 Get *)
  | CSessGet i c => (ASess (answer_read f (cache_get (w_now w) (w_sess w) (sess_key E i c))), w)
  (* authorization_code_session.go:56-60 Delete *)
  | CSessDel i c =>
      let '(r, w') := do_write f w (with_sess w (upd (w_sess w) (sess_key E i c) None)) tt in
      (AUnit r, w')
  (* authorization_code_session.go:48-54 Register *)
  | CSessReg i c s =>
      let '(r, w') := do_write f w
        (with_sess w (cache_set (w_now w) session_ttl (w_sess w) (sess_key E i c) s)) 60%N in
      (ANum r, w')
  (* authorization_request.go:62-70, 56-60, 48-54 *)
  | CReqGet i u => (AReq (answer_read f (cache_get (w_now w) (w_req w) (req_key E i u))), w)
  | CReqDel i u =>
      let '(r, w') := do_write f w (with_req w (upd (w_req w) (req_key E i u) None)) tt in
      (AUnit r, w')
  | CReqReg i u q =>
      let '(r, w') := do_write f w
        (with_req w (cache_set (w_now w) session_ttl (w_req w) (req_key E i u) q)) 60%N in
      (ANum r, w')
  (* device_code_session.go:66-74 and 76-84 *)
  | CDevGetDev i c => (ADev (answer_read f (cache_get (w_now w) (w_devd w) (device_key E i c))), w)
  | CDevGetUser i c => (ADev (answer_read f (cache_get (w_now w) (w_devu w) (user_key E i c))), w)
  (* device_code_session.go:51-58 Register.  The in-memory store keeps the session as
     it is ([w_stamp] is the identity in [init_world]); another implementation of
     storage.DeviceCodeSession may fill in the expiry and the status, which nothing
     in the repository does: [w_stamp] stands for that. *)
  | CDevReg _ u s =>
      let '(r, w') := do_write f w (store_device w u (w_stamp w (w_now w) s)) 120%N in
      (ANum r, w')
  (* device_code_session.go:86-93 Validate *)
  | CDevVal _ u s =>
      let '(r, w') := do_write f w (store_device w u s) tt in (AUnit r, w')
  (* device_code_session.go:60-64 Delete: the user code index only *)
  | CDevDel i u =>
      let '(r, w') := do_write f w (with_dev w (upd (w_devu w) (user_key E i u) None) (w_devd w)) tt in
      (AUnit r, w')
  (* token.go:77-86 GetByValue *)
  | CTokGet i v => (ATok (answer_read f (w_tval w (tok_key E i v))), w)
  (* token.go:47-64 Create *)
  | CTokCreate i t =>
      let '(r, w') := do_write f w (store_token w (hashed i t)) tt in (AUnit r, w')
  (* token.go:102-118 Revoke *)
  | CTokRevoke _ id =>
      match w_tid w id with
      | None =>
          match f with
          | FBefore | FAfter => (AUnit SErr, w)
          | _ => (AUnit SNotFound, w)
          end
      | Some t =>
          let '(r, w') := do_write f w (store_token w (set_status t TsRevoked)) tt in (AUnit r, w')
      end
  (* proof.go:58-64 Exists and 45-50 Register *)
  | CProofExists id =>
      (ABool (match f with
              | FNone | FNil => SOk (match cache_get (w_now w) (w_proof w) id with
                                     | Some _ => true | None => false end)
              | FBefore | FAfter => SErr
              | FNotFound => SNotFound
              end), w)
  | CProofReg id =>
      let '(r, w') := do_write f w
        (with_proof w (cache_set (w_now w) session_ttl (w_proof w) id tt)) tt in (AUnit r, w')
  end.

End Exec.
