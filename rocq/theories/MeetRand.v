(** * Concrete cases for the shared generator *)

From Verif Require Export SpecRand PfRandomness.
Local Open Scope list_scope.

(** A generator that counts: one step reads the counter, the next one writes it.  Without
    the lock two calls could read the same value.  With [checked], calls out of range panic
    and the function passed to Shuffle uses the generator. *)
Inductive toy_local := TStart (o : rop) | TRead (v : N).
Definition toy (checked : bool) : generator :=
  mkGenerator N toy_local N TStart
    (fun l s =>
       match l with
       | TStart o =>
           if checked && out_of_range o then Throw s
           else match o with
                | RShuffle n => if checked && (1 <? n)%Z then Reenter RInt63 s else Go (TRead s) s
                | _ => Go (TRead s) s
                end
       | TRead v => Return v (v + 1)%N
       end).

Lemma toy_returns : methods_return (toy false).
Proof.
  intros o s. exists s, (s + 1)%N. apply @body_go with (l' := TRead s : g_local (toy false)) (s1 := s).
  - destruct o; reflexivity.
  - apply @body_return. reflexivity.
Qed.

Lemma toy_checked : range_checked (toy true).
Proof. intros o s H. exists s. cbn. rewrite H. reflexivity. Qed.

(** Three goroutines: two that draw twice, one that panics or shuffles. *)
Definition toy_calls (o : rop) (t : nat) : list rop :=
  match t with 0 => [RInt63; RUint32] | 1 => [RInt63; RPerm 3] | 2 => [o] | _ => [] end.
