(** * The shared random generator: the theorems

    Written by tools/gen_props.py: the statements are those of the lemmas proved in
    PfRandomness.
    Below each theorem, a concrete case that meets its hypotheses. *)

From Verif Require Import MeetRand.
Local Open Scope list_scope.

(** ** C92 The shared random generator is atomic and deterministic *)

Theorem C92_linearizable : forall (G : generator) (s : g_state G) calls ts,
    let y := rrun ts (new_locked_rand s calls) in
    exists lin s', explains s (rs_events y) lin s' /\ (rs_locked y = false -> s' = rs_shared y).
Proof. exact C92_linearizable_proof. Qed.
Print Assumptions C92_linearizable.
Example C92_linearizable_met :
  let h := rs_events (rrun [0; 0; 1; 0; 1; 1; 0; 0; 1; 0; 1; 1; 1; 1; 0]%nat (new_locked_rand (G := toy true) 7%N (toy_calls RInt))) in
  In (RvReturn 0%nat 0%nat RInt63 7%N) h /\ In (RvReturn 1%nat 0%nat RInt63 8%N) h.
Proof. vm_compute. tauto. Qed.

Theorem C92_seed_decides : forall (G : generator) (s : g_state G) calls calls' ts ts',
    let h := rs_events (rrun ts (new_locked_rand s calls)) in
    let h' := rs_events (rrun ts' (new_locked_rand s calls')) in
    exists lin lin' s1 s1', explains s h lin s1 /\ explains s h' lin' s1' /\
      forall more, map (fun c => snd (fst c)) lin' = map (fun c => snd (fst c)) lin ++ more ->
        exists rest, map snd lin' = map snd lin ++ rest.
Proof. exact C92_seed_decides_proof. Qed.
Print Assumptions C92_seed_decides.
Example C92_seed_decides_met :
  let h := rs_events (rrun [0; 0; 0; 0; 0; 0; 1; 1; 1; 1; 1; 1]%nat (new_locked_rand (G := toy true) 7%N (toy_calls RInt))) in
  let h' := rs_events (rrun [1; 1; 1; 1; 1; 1; 0; 0; 0; 0; 0; 0]%nat (new_locked_rand (G := toy true) 7%N (toy_calls RInt))) in
  In (RvReturn 0%nat 0%nat RInt63 7%N) h /\ In (RvReturn 1%nat 0%nat RInt63 8%N) h /\
  In (RvReturn 1%nat 0%nat RInt63 7%N) h' /\ In (RvReturn 0%nat 0%nat RInt63 8%N) h'.
Proof. vm_compute. tauto. Qed.

Theorem C92_call_can_return : forall (G : generator) (s : g_state G) calls ts t k o,
    methods_return G ->
    In (RvCall t k o) (rs_events (rrun ts (new_locked_rand s calls))) ->
    exists ts' r, In (RvReturn t k o r) (rs_events (rrun (ts ++ ts') (new_locked_rand s calls))).
Proof. exact C92_call_can_return_proof. Qed.
Print Assumptions C92_call_can_return.
Example C92_call_can_return_met :
  methods_return (toy false) /\
  In (RvCall 1%nat 0%nat RInt63) (rs_events (rrun [0; 0; 1; 0; 1]%nat (new_locked_rand (G := toy false) 7%N (toy_calls RInt)))).
Proof. split; [exact toy_returns|]. vm_compute. tauto. Qed.

Theorem C92_after_panic : forall (G : generator) (s : g_state G) calls ts ts' t k o,
    let h := rs_events (rrun ts (new_locked_rand s calls)) in
    In (RvPanic t k o) h \/ In (RvNested t k o) h ->
    exists later, rs_events (rrun (ts ++ ts') (new_locked_rand s calls)) = h ++ later /\
      forall t' k' o' r, In (RvCall t' k' o') later -> ~ In (RvReturn t' k' o' r) later.
Proof. exact C92_after_panic_proof. Qed.
Print Assumptions C92_after_panic.
Example C92_after_panic_met :
  In (RvPanic 2%nat 0%nat (RIntn 0)) (rs_events (rrun [0; 2; 2; 2; 0]%nat (new_locked_rand (G := toy true) 7%N (toy_calls (RIntn 0))))) /\
  In (RvNested 2%nat 0%nat RInt63) (rs_events (rrun [0; 2; 2; 2; 0]%nat (new_locked_rand (G := toy true) 7%N (toy_calls (RShuffle 5))))).
Proof. vm_compute. tauto. Qed.

Theorem C92_calls_return_refuted : forall (G : generator) (s : g_state G) (o : rop),
    range_checked G -> out_of_range o = true ->
    exists calls ts,
      calls 1 = [RInt63] /\
      In (RvPanic 0 0 o) (rs_events (rrun ts (new_locked_rand s calls))) /\
      forall ts' r, ~ In (RvReturn 1 0 RInt63 r) (rs_events (rrun (ts ++ ts') (new_locked_rand s calls))).
Proof. exact C92_calls_return_refuted_proof. Qed.
Print Assumptions C92_calls_return_refuted.
Example C92_calls_return_refuted_met : range_checked (toy true) /\ out_of_range (RIntn 0) = true.
Proof. split; [exact toy_checked|reflexivity]. Qed.
