(** * Services as programs over storage calls

    A service function is modelled as a tree of *calls* (clock, random source,
    token and code generators, storage) with a continuation for every possible
    answer.  Between two calls a request only computes on its own values, so a
    call is the unit of interleaving, of failure and of crash. *)

From Verif Require Export Types StringArray Base64.

(** Answer of a storage read or write (server/storage/api.go):
    a value, a nil value with nil error, storage.ErrNotFound, another error. *)
Inductive sres (A : Type) := SOk (a : A) | SNil | SNotFound | SErr.
Arguments SOk {A} _.
Arguments SNil {A}.
Arguments SNotFound {A}.
Arguments SErr {A}.

Inductive call :=
| CNow                                        (* time.Now() *)
| CRand (n : N)                               (* uniuri.NewLen(n) *)
| CGenAT (t : token)                          (* accessTokenGen.Generate *)
| CGenRT (t : token)                          (* refreshTokenGen.Generate *)
| CGenCode (issuer : string)                  (* codeGenerator.Generate *)
| CGenURI (issuer : string)                   (* requestURIGenerator.Generate *)
| CGenDev (issuer : string)                   (* deviceCodes.Generate *)
| CGenUser (issuer : string)                  (* userCodes.Generate *)
| CClientGet (id : string)                    (* clients.Get *)
| CResGet (urn : string)                      (* resources.GetByURI *)
| CSessGet (issuer code : string)             (* authorizationCodeSessions.Get *)
| CSessDel (issuer code : string)
| CSessReg (issuer code : string) (s : acsession)
| CReqGet (issuer uri : string)               (* authorizationRequests.Get *)
| CReqDel (issuer uri : string)
| CReqReg (issuer uri : string) (r : authreq)
| CDevGetDev (issuer code : string)           (* deviceCodeSessions.GetByDeviceCode *)
| CDevGetUser (issuer code : string)
| CDevReg (issuer user_code : string) (s : devsession)
| CDevVal (issuer user_code : string) (s : devsession)
| CDevDel (issuer user_code : string)
| CTokGet (issuer value : string)             (* tokens.GetByValue *)
| CTokCreate (issuer : string) (t : token)
| CTokRevoke (issuer id : string)
| CProofExists (id : string)                  (* storage.DPoP *)
| CProofReg (id : string).

Inductive answer :=
| ATime (t : N)
| AStr (s : string)
| AGen (r : option string)
| AClient (r : sres client)
| ARes (r : sres string)
| ASess (r : sres acsession)
| AReq (r : sres authreq)
| ADev (r : sres devsession)
| ATok (r : sres token)
| ABool (r : sres bool)
| ANum (r : sres N)
| AUnit (r : sres unit).

(** [Stuck] is reached only by an answer of the wrong kind, which storage never
    gives (see [Storage.exec]); [Panic] is a Go run-time panic. *)
Inductive prog (A : Type) :=
| Ret (a : A)
| Panic
| Stuck
| Do (c : call) (k : answer -> prog A).
Arguments Ret {A} _.
Arguments Panic {A}.
Arguments Stuck {A}.
Arguments Do {A} _ _.

Fixpoint bind {A B} (p : prog A) (f : A -> prog B) : prog B :=
  match p with
  | Ret a => f a
  | Panic => Panic
  | Stuck => Stuck
  | Do c k => Do c (fun a => bind (k a) f)
  end.

Definition pmap {A B} (f : A -> B) (p : prog A) : prog B := bind p (fun a => Ret (f a)).

(** Typed calls. *)
Definition now {A} (k : N -> prog A) : prog A :=
  Do CNow (fun a => match a with ATime t => k t | _ => Stuck end).
Definition rand {A} n (k : string -> prog A) : prog A :=
  Do (CRand n) (fun a => match a with AStr s => k s | _ => Stuck end).
Definition gen {A} c (k : option string -> prog A) : prog A :=
  Do c (fun a => match a with AGen r => k r | _ => Stuck end).
Definition client_get {A} id (k : sres client -> prog A) : prog A :=
  Do (CClientGet id) (fun a => match a with AClient r => k r | _ => Stuck end).
Definition res_get {A} urn (k : sres string -> prog A) : prog A :=
  Do (CResGet urn) (fun a => match a with ARes r => k r | _ => Stuck end).
Definition sess_get {A} i c (k : sres acsession -> prog A) : prog A :=
  Do (CSessGet i c) (fun a => match a with ASess r => k r | _ => Stuck end).
Definition req_get {A} i c (k : sres authreq -> prog A) : prog A :=
  Do (CReqGet i c) (fun a => match a with AReq r => k r | _ => Stuck end).
Definition dev_get {A} c (k : sres devsession -> prog A) : prog A :=
  Do c (fun a => match a with ADev r => k r | _ => Stuck end).
Definition tok_get {A} i v (k : sres token -> prog A) : prog A :=
  Do (CTokGet i v) (fun a => match a with ATok r => k r | _ => Stuck end).
Definition proof_exists {A} id (k : sres bool -> prog A) : prog A :=
  Do (CProofExists id) (fun a => match a with ABool r => k r | _ => Stuck end).
(** Writes that return a lifetime. *)
Definition reg {A} c (k : sres N -> prog A) : prog A :=
  Do c (fun a => match a with ANum r => k r | _ => Stuck end).
(** Writes that only return an error. *)
Definition write {A} c (k : sres unit -> prog A) : prog A :=
  Do c (fun a => match a with AUnit r => k r | _ => Stuck end).

(** A write succeeded when the Go error is nil. *)
Definition is_ok {A} (r : sres A) : bool :=
  match r with SOk _ | SNil => true | SNotFound | SErr => false end.

(** ** Program-level semantics: the calls a request makes, with arbitrary answers *)

Inductive outcome (A : Type) := Done (a : A) | Crashed.
Arguments Done {A} _.
Arguments Crashed {A}.

(** [reach p tr q]: from [p], after the calls and answers [tr], [q] remains. *)
Inductive reach {A} : prog A -> list (call * answer) -> prog A -> Prop :=
| reach_nil p : reach p [] p
| reach_call c k a tr q : reach (k a) tr q -> reach (Do c k) ((c, a) :: tr) q.

(** [runs p tr o]: [p] ends with outcome [o] after making the calls [tr]. *)
Definition runs {A} (p : prog A) (tr : list (call * answer)) (o : outcome A) : Prop :=
  match o with
  | Done a => reach p tr (Ret a)
  | Crashed => reach p tr Panic
  end.

(** Seconds since the epoch of a clock reading in nanoseconds:
    uint64(t.Unix()) for times after 1970. *)
Definition second : N := 1000000000.
Definition unix (t : N) : N := t / second.
