(** * The in-memory token store under concurrency

    Models server/storage/inmemory/token.go:32-118 in the steps that goroutines can
    interleave: each operation of the two sync.Map indexes and each access to a field of a
    shared token object is one step, taken atomically and in one order for all goroutines.
    What a goroutine does on its own (cloning, hashing) is part of the step that follows.
    The argument t of Create is not nil. *)

From Verif Require Export TokenStore.

(** The methods of storage.Token. *)
Inductive scall :=
| SCreate (issuer : string) (t : token)
| SGet (issuer id : string)
| SGetByValue (issuer value : string)
| SRevoke (issuer id : string)
| SDelete (issuer id : string).

(** A nil error, ErrNotFound, or a token.  Get and GetByValue return a pointer; the token is
    what the caller reads through it. *)
Inductive sresult := SrOk | SrMissing | SrToken (t : token).

(** What a goroutine does next inside a method. *)
Inductive pc :=
| PcCreateId (issuer : string) (t : token)   (* token.go:53-59, up to s.idIndex.Store *)
| PcCreateVal (a : nat)                      (* token.go:60 *)
| PcGet (id : string)                        (* token.go:68 *)
| PcGetByValue (key : string)                (* token.go:79 *)
| PcRead (a : nat)                           (* the caller reads the token *)
| PcDelLoad (id : string)                    (* token.go:90 *)
| PcDelId (a : nat)                          (* token.go:95 *)
| PcDelVal (a : nat)                         (* token.go:96 *)
| PcRevLoad (id : string)                    (* token.go:104 *)
| PcRevSet (a : nat)                         (* token.go:110 *)
| PcRevId (a : nat)                          (* token.go:113 *)
| PcRevVal (a : nat)                         (* token.go:114 *)
| PcReturn (r : sresult).

(** The shared store, and for each goroutine the call it is in. *)
Record sconf := mkSConf { sc_store : tstore; sc_threads : nat -> option (scall * pc) }.

Definition sc_new : sconf := mkSConf ts_new (fun _ => None).

Definition set_thread {A} (f : nat -> A) (th : nat) (x : A) (k : nat) : A := if Nat.eqb k th then x else f k.

Inductive sevent := SvCall (th : nat) (c : scall) | SvReturn (th : nat) (c : scall) (r : sresult).

(** A goroutine calls a method, or takes its next step. *)
Inductive schoice := Enter (th : nat) (c : scall) | Advance (th : nat).

Section Steps.
Context (E : ext).

Definition entry (c : scall) : pc :=
  match c with
  | SCreate issuer t => PcCreateId issuer t
  | SGet _ id => PcGet id
  | SGetByValue issuer value => PcGetByValue (tok_key E issuer value)
  | SRevoke _ id => PcRevLoad id
  | SDelete _ id => PcDelLoad id
  end.

(** token.go:47-118: one step on the store, and what is next.  [None]: an address that was
    not allocated, which does not happen. *)
Definition pc_step (s : tstore) (p : pc) : option (tstore * pc) :=
  match p with
  | PcCreateId issuer t =>
      let a := List.length (ts_heap s) in
      let c := hashed E issuer t in
      Some (mkTStore (ts_heap s ++ [c])%list (upd (ts_id s) (t_id c) (Some a)) (ts_val s), PcCreateVal a)
  | PcCreateVal a =>
      match nth_error (ts_heap s) a with
      | None => None
      | Some t => Some (mkTStore (ts_heap s) (ts_id s) (upd (ts_val s) (t_value t) (Some a)), PcReturn SrOk)
      end
  | PcGet id =>
      Some (s, match ts_id s id with Some a => PcRead a | None => PcReturn SrMissing end)
  | PcGetByValue key =>
      Some (s, match ts_val s key with Some a => PcRead a | None => PcReturn SrMissing end)
  | PcRead a =>
      match nth_error (ts_heap s) a with
      | None => None
      | Some t => Some (s, PcReturn (SrToken t))
      end
  | PcDelLoad id =>
      Some (s, match ts_id s id with Some a => PcDelId a | None => PcReturn SrMissing end)
  | PcDelId a =>
      match nth_error (ts_heap s) a with
      | None => None
      | Some t => Some (mkTStore (ts_heap s) (upd (ts_id s) (t_id t) None) (ts_val s), PcDelVal a)
      end
  | PcDelVal a =>
      match nth_error (ts_heap s) a with
      | None => None
      | Some t => Some (mkTStore (ts_heap s) (ts_id s) (upd (ts_val s) (t_value t) None), PcReturn SrOk)
      end
  | PcRevLoad id =>
      Some (s, match ts_id s id with Some a => PcRevSet a | None => PcReturn SrMissing end)
  | PcRevSet a =>
      match nth_error (ts_heap s) a with
      | None => None
      | Some t => Some (mkTStore (heap_set (ts_heap s) a (set_status t TsRevoked)) (ts_id s) (ts_val s), PcRevId a)
      end
  | PcRevId a =>
      match nth_error (ts_heap s) a with
      | None => None
      | Some t => Some (mkTStore (ts_heap s) (upd (ts_id s) (t_id t) (Some a)) (ts_val s), PcRevVal a)
      end
  | PcRevVal a =>
      match nth_error (ts_heap s) a with
      | None => None
      | Some t => Some (mkTStore (ts_heap s) (ts_id s) (upd (ts_val s) (t_value t) (Some a)), PcReturn SrOk)
      end
  | PcReturn r => None
  end.

Definition tk_step (cf : sconf) (x : schoice) : sconf * list sevent :=
  match x with
  | Enter th c =>
      match sc_threads cf th with
      | Some _ => (cf, [])
      | None => (mkSConf (sc_store cf) (set_thread (sc_threads cf) th (Some (c, entry c))), [SvCall th c])
      end
  | Advance th =>
      match sc_threads cf th with
      | None => (cf, [])
      | Some (c, PcReturn r) => (mkSConf (sc_store cf) (set_thread (sc_threads cf) th None), [SvReturn th c r])
      | Some (c, p) =>
          match pc_step (sc_store cf) p with
          | None => (cf, [])
          | Some (s, p) => (mkSConf s (set_thread (sc_threads cf) th (Some (c, p))), [])
          end
      end
  end.

Fixpoint tk_run (cf : sconf) (xs : list schoice) : sconf * list sevent :=
  match xs with
  | [] => (cf, [])
  | x :: xs =>
      let '(cf, e1) := tk_step cf x in
      let '(cf, e2) := tk_run cf xs in (cf, e1 ++ e2)%list
  end.

(** Calls and returns of a schedule on a new store. *)
Definition shistory (xs : list schoice) : list sevent := snd (tk_run sc_new xs).
End Steps.
