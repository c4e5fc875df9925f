(** * Vocabulary for the statements about progress *)

From Verif Require Export HttpSystem.

(** How many requests a schedule sends. *)
Fixpoint arrivals (xs : list sched) : nat :=
  match xs with [] => 0 | SNew _ :: xs => S (arrivals xs) | _ :: xs => arrivals xs end.
Fixpoint http_arrivals (xs : list hsched) : nat :=
  match xs with [] => 0 | HNew _ _ :: xs => S (http_arrivals xs) | _ :: xs => http_arrivals xs end.

(** How often a schedule lets request [i] run. *)
Fixpoint turns (i : nat) (xs : list sched) : nat :=
  match xs with
  | [] => 0
  | SStep j _ :: xs => if Nat.eqb j i then S (turns i xs) else turns i xs
  | _ :: xs => turns i xs
  end.
Fixpoint http_turns (i : nat) (xs : list hsched) : nat :=
  match xs with
  | [] => 0
  | HStep j _ :: xs => if Nat.eqb j i then S (http_turns i xs) else http_turns i xs
  | _ :: xs => http_turns i xs
  end.
