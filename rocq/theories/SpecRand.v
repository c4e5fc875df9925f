(** * Vocabulary for the shared random generator *)

From Verif Require Export Randomness.

Section SpecRand.
Context {G : generator}.
Notation S := (g_state G).
Notation R := (g_result G).

(** The body of a method, run alone to its end. *)
Inductive body : g_local G -> S -> R -> S -> Prop :=
| body_return l s r s' : g_next G l s = Return r s' -> body l s r s'
| body_go l s l' s1 r s' : g_next G l s = Go l' s1 -> body l' s1 r s' -> body l s r s'.

(** Calls made one after the other by one goroutine. *)
Inductive sequential : S -> list (rop * R) -> S -> Prop :=
| seq_nil s : sequential s [] s
| seq_cons s o r s1 rest s' : body (g_enter G o) s r s1 -> sequential s1 rest s' -> sequential s ((o, r) :: rest) s'.

(** A call, named by its goroutine and its number there, with its result. *)
Definition called : Type := (nat * nat * rop * R)%type.

(** [lin] explains the events [h]: a sequential execution from [s] of calls that were made,
    each once, with all calls that returned, in an order that respects which call was over
    before another one was made. *)
Definition explains (s : S) (h : list (revent R)) (lin : list called) (s' : S) : Prop :=
  sequential s (map (fun c => (snd (fst c), snd c)) lin) s' /\
  (forall t k o r, In (RvReturn t k o r) h -> In (t, k, o, r) lin) /\
  (forall t k o r, In (t, k, o, r) lin -> In (RvCall t k o) h) /\
  NoDup (map (fun c => fst (fst c)) lin) /\
  (forall h1 h2 t k o r t' k' o' l1 r' l2,
     h = (h1 ++ h2)%list -> In (RvReturn t k o r) h1 -> In (RvCall t' k' o') h2 ->
     lin = (l1 ++ (t', k', o', r') :: l2)%list -> In (t, k, o, r) l1).

(** Every method of the generator returns, whatever the state. *)
Definition methods_return : Prop :=
  forall o s, exists r s', body (g_enter G o) s r s'.

(** math/rand: a call out of range panics. *)
Definition range_checked : Prop :=
  forall o s, out_of_range o = true -> exists s', g_next G (g_enter G o) s = Throw s'.
End SpecRand.
Arguments methods_return : clear implicits.
Arguments range_checked : clear implicits.
