(** * Concrete cases for C119 *)

From Verif Require Export MeetMint PfSent.

Fixpoint find_at (f : hevent -> bool) (l : list hevent) (n : nat) : option nat :=
  match l with [] => None | e :: l => if f e then Some n else find_at f l (Datatypes.S n) end.
Definition start_at (i : nat) : nat :=
  match find_at (fun e => match e with HvStart j _ _ => Nat.eqb j i | _ => false end) hh_mint 0 with Some n => n | None => 0 end.
Definition done_at (i : nat) : nat :=
  match find_at (fun e => match e with HvDone j _ => Nat.eqb j i | _ => false end) hh_mint 0 with Some n => n | None => 0 end.
Lemma redeem_sent : exists r access expires type refresh scope,
  responded hh_mint 1 EToken r (HToken access expires type refresh scope) /\ access = A 19 /\ refresh = R 23.
Proof.
  do 6 eexists. split; [split|split].
  - eapply nth_error_In with (n := start_at 1). vm_compute. reflexivity.
  - eapply nth_error_In with (n := done_at 1). vm_compute. reflexivity.
  - vm_compute. reflexivity.
  - vm_compute. reflexivity.
Qed.
Lemma redeem_stored : exists iss t a, In (HvCall 1 (CTokCreate iss t) a) hh_mint /\ t_value t = R 23.
Proof.
  do 3 eexists. split.
  - eapply nth_error_In with (n := 24%nat). vm_compute. reflexivity.
  - vm_compute. reflexivity.
Qed.
