(** * The server: any number of concurrent requests over shared storage *)

From Verif Require Export Storage TokenSvc AuthzSvc DeviceSvc ClientAuth DPoP.

(** ** Requests *)

(** One call of a service of the repository. *)
Inductive request :=
| RToken (r : option token_request)                     (* token service, Token *)
| RIntrospect (r : option value_request)                (* token service, Introspect *)
| RRevoke (r : option value_request)                    (* token service, Revoke *)
| RAuthorize (r : option authorize_request)             (* authorization service, Authorize *)
| RRegister (r : option registration_request)           (* authorization service, Register *)
| RDevAuthorize (r : option dev_request)                (* device service, Authorize *)
| RDevValidate (r : option dev_validation_request)      (* device service, Validate *)
| RAssertion (r : option auth_request)                  (* private_key_jwt *)
| RAttestation (r : option auth_request)                (* client attestation *)
| RDpop (htm htu proof : string) (token_value token_cnf : option string). (* dpop Verify *)

Inductive response :=
| PToken (r : token_response)
| PIntrospect (r : introspect_response)
| PRevoke (r : revoke_response)
| PAuthorize (r : authorize_response)
| PRegister (r : registration_response)
| PDevAuthorize (r : dev_response)
| PDevValidate (r : dev_validation_response)
| PAuthn (r : auth_response)
| PDpop (r : option string).

Definition serve (E : ext) (r : request) : prog response :=
  match r with
  | RToken r => pmap PToken (token_svc E r)
  | RIntrospect r => pmap PIntrospect (introspect_svc E r)
  | RRevoke r => pmap PRevoke (revoke_svc E r)
  | RAuthorize r => pmap PAuthorize (authorize_svc E r)
  | RRegister r => pmap PRegister (register_svc E r)
  | RDevAuthorize r => pmap PDevAuthorize (dev_authorize_svc E r)
  | RDevValidate r => pmap PDevValidate (dev_validate_svc r)
  | RAssertion r => pmap PAuthn (private_key_jwt E r)
  | RAttestation r => pmap PAuthn (client_attestation E r)
  | RDpop htm htu proof tv tc => pmap PDpop (dpop_verify E htm htu proof tv tc)
  end.

(** ** Schedules and histories *)

(** What the environment does next: send a new request, let request number [i]
    make its next call (with the given failure / generated string), let time pass. *)
Inductive sched :=
| SNew (r : request)
| SStep (i : nat) (o : orc)
| STick (ns : N).

(** What is recorded.  Requests are numbered in order of arrival. *)
Inductive event :=
| EvStart (i : nat) (r : request)
| EvCall (i : nat) (c : call) (a : answer)
| EvDone (i : nat) (o : outcome response)
| EvTick (ns : N).

(** A request is running (with what is left of its program) or has answered. *)
Inductive thread := Running (p : prog response) | Finished.

Record sys := mkSys { s_world : world; s_threads : list thread }.

Fixpoint set_nth {A} (l : list A) (i : nat) (x : A) : list A :=
  match l, i with
  | [], _ => []
  | _ :: r, O => x :: r
  | y :: r, S i => y :: set_nth r i x
  end.

(** One step; [None] when the environment's choice is void (no such request, or it
    has already answered). *)
Definition sstep (E : ext) (s : sys) (x : sched) : option (event * sys) :=
  match x with
  | SNew r =>
      Some (EvStart (List.length (s_threads s)) r,
            mkSys (s_world s) (s_threads s ++ [Running (serve E r)])%list)
  | SStep i o =>
      match nth_error (s_threads s) i with
      | Some (Running (Do c k)) =>
          let '(a, w') := exec E (s_world s) o c in
          Some (EvCall i c a, mkSys w' (set_nth (s_threads s) i (Running (k a))))
      | Some (Running (Ret r)) =>
          Some (EvDone i (Done r), mkSys (s_world s) (set_nth (s_threads s) i Finished))
      | Some (Running Panic) =>
          Some (EvDone i Crashed, mkSys (s_world s) (set_nth (s_threads s) i Finished))
      | _ => None
      end
  | STick d =>
      Some (EvTick d, mkSys (with_now (s_world s) (w_now (s_world s) + d)) (s_threads s))
  end.

Fixpoint run (E : ext) (s : sys) (xs : list sched) : list event * sys :=
  match xs with
  | [] => ([], s)
  | x :: xs =>
      match sstep E s x with
      | None => run E s xs
      | Some (e, s1) => let '(h, s2) := run E s1 xs in (e :: h, s2)
      end
  end.

(** Start of the server on a given storage content. *)
Definition start (w : world) : sys := mkSys w [].

(** The history and the final storage of a schedule. *)
Definition history (E : ext) (w : world) (xs : list sched) : list event := fst (run E (start w) xs).
Definition final (E : ext) (w : world) (xs : list sched) : world := s_world (snd (run E (start w) xs)).
