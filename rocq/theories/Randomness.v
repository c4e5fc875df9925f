(** * sdk/randomness: the generator shared by goroutines *)

From Verif Require Export Strs.
From Coq Require Export ZArith.
Local Open Scope Z_scope.

(** The methods of LockedRand (locked_rand.go:25-167). *)
Inductive rop :=
| RSeed (seed : Z) | RInt63 | RUint32 | RUint64 | RInt31 | RInt
| RInt63n (n : Z) | RInt31n (n : Z) | RIntn (n : Z)
| RFloat64 | RFloat32 | RPerm (n : Z) | RNormFloat64 | RExpFloat64
| RShuffle (n : Z) | RRead (len : N).

(** The standard library's generator, math/rand.Rand, is not modelled: any machine with
    states [g_state] (the source and the buffer of Read) and, for each method, a local
    state (the program counter and variables of its body).  One step reads and writes the
    shared state once; it may return, panic, or call the generator again, which the
    function passed to Shuffle can do. *)
Inductive outcome (L S R : Type) :=
| Go (l : L) (s : S)
| Return (r : R) (s : S)
| Throw (s : S)
| Reenter (o : rop) (s : S).
Arguments Go {L S R}. Arguments Return {L S R}. Arguments Throw {L S R}. Arguments Reenter {L S R}.

Record generator := mkGenerator {
  g_state : Type;
  g_local : Type;
  g_result : Type;
  g_enter : rop -> g_local;
  g_next : g_local -> g_state -> outcome g_local g_state g_result
}.

(** Where a goroutine is in the method it calls (locked_rand.go:25-167, all
    alike: Lock, the method of the generator, Unlock, return; none defers the Unlock). *)
Inductive phase (G : generator) :=
| Idle                                            (* between two calls *)
| Locking (o : rop)                               (* before lk.Lock() *)
| Inside (o : rop) (l : g_local G)                (* the lock is held *)
| Unlocking (o : rop) (r : g_result G)            (* before lk.Unlock() *)
| Returning (o : rop) (r : g_result G)            (* after lk.Unlock() *)
| Waiting (o : rop)                               (* in a nested call, before lk.Lock() *)
| Unwound.                                        (* the method panicked; recovered outside *)
Arguments Idle {G}. Arguments Locking {G}. Arguments Inside {G}. Arguments Unlocking {G}.
Arguments Returning {G}. Arguments Waiting {G}. Arguments Unwound {G}.

(** A goroutine: the calls still to make, how many it made, and its phase. *)
Record routine (G : generator) := mkRoutine { r_todo : list rop; r_count : nat; r_phase : phase G }.
Arguments mkRoutine {G}. Arguments r_todo {G}. Arguments r_count {G}. Arguments r_phase {G}.

Inductive revent (R : Type) :=
| RvCall (t k : nat) (o : rop)
| RvReturn (t k : nat) (o : rop) (r : R)
| RvPanic (t k : nat) (o : rop)
| RvNested (t k : nat) (o : rop).
Arguments RvCall {R}. Arguments RvReturn {R}. Arguments RvPanic {R}. Arguments RvNested {R}.

(** The shared generator, its lock, the goroutines and what happened so far. *)
Record rsystem (G : generator) := mkRSystem {
  rs_shared : g_state G;
  rs_locked : bool;
  rs_routines : nat -> routine G;
  rs_events : list (revent (g_result G))
}.
Arguments mkRSystem {G}. Arguments rs_shared {G}. Arguments rs_locked {G}.
Arguments rs_routines {G}. Arguments rs_events {G}.

Definition set_routine {G} (m : nat -> routine G) (t : nat) (r : routine G) : nat -> routine G :=
  fun t' => if Nat.eqb t' t then r else m t'.

(** Goroutine [t] makes one step; it does not move while it waits for the lock (sync.Mutex
    is not reentrant), or when it has nothing left to do.  A goroutine that panicked goes on
    with its next call, as a handler does after recovery. *)
Definition rstep {G} (t : nat) (y : rsystem G) : rsystem G :=
  let r := rs_routines y t in
  let put p := set_routine (rs_routines y) t p in
  match r_phase r with
  | Idle | Unwound =>
      match r_todo r with
      | [] => y
      | o :: os =>
          mkRSystem (rs_shared y) (rs_locked y) (put (mkRoutine os (r_count r) (Locking o)))
            (rs_events y ++ [RvCall t (r_count r) o])
      end
  | Locking o =>
      if rs_locked y then y
      else mkRSystem (rs_shared y) true (put (mkRoutine (r_todo r) (r_count r) (Inside o (g_enter G o)))) (rs_events y)
  | Inside o l =>
      match g_next G l (rs_shared y) with
      | Go l' s => mkRSystem s (rs_locked y) (put (mkRoutine (r_todo r) (r_count r) (Inside o l'))) (rs_events y)
      | Return v s => mkRSystem s (rs_locked y) (put (mkRoutine (r_todo r) (r_count r) (Unlocking o v))) (rs_events y)
      | Throw s =>
          mkRSystem s (rs_locked y) (put (mkRoutine (r_todo r) (Datatypes.S (r_count r)) Unwound))
            (rs_events y ++ [RvPanic t (r_count r) o])
      | Reenter o' s =>
          mkRSystem s (rs_locked y) (put (mkRoutine (r_todo r) (r_count r) (Waiting o)))
            (rs_events y ++ [RvNested t (r_count r) o'])
      end
  | Waiting o => y    (* the lock is held by the goroutine itself *)
  | Unlocking o v =>
      mkRSystem (rs_shared y) false (put (mkRoutine (r_todo r) (r_count r) (Returning o v))) (rs_events y)
  | Returning o v =>
      mkRSystem (rs_shared y) (rs_locked y) (put (mkRoutine (r_todo r) (Datatypes.S (r_count r)) Idle))
        (rs_events y ++ [RvReturn t (r_count r) o v])
  end.

Fixpoint rrun {G} (ts : list nat) (y : rsystem G) : rsystem G :=
  match ts with [] => y | t :: ts => rrun ts (rstep t y) end.

(** NewLockedRand and NewReader (locked_rand.go:9-21, global.go:91-93; [s]: the generator of the seed), shared by
    goroutines that make the calls [calls t]. *)
Definition new_locked_rand {G} (s : g_state G) (calls : nat -> list rop) : rsystem G :=
  mkRSystem s false (fun t => mkRoutine (calls t) 0 Idle) [].

(** math/rand: Int63n, Int31n and Intn panic for n <= 0, Shuffle and Perm for n < 0. *)
Definition out_of_range (o : rop) : bool :=
  match o with
  | RInt63n n | RInt31n n | RIntn n => n <=? 0
  | RShuffle n | RPerm n => n <? 0
  | _ => false
  end.
