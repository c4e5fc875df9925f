(** * sdk/types/compare.go *)

From Verif Require Import Strs.

(** int32(n): the low 32 bits, as an unsigned bit pattern. *)
Definition int32 (n : N) : N := n mod 2 ^ 32.

(** crypto/subtle.ConstantTimeEq(x, y int32) int:
    int((uint64(uint32(x^y)) - 1) >> 63) *)
Definition constant_time_eq (x y : N) : N :=
  (((N.lxor x y + 2 ^ 64 - 1) mod 2 ^ 64) / 2 ^ 63)%N.

(** crypto/subtle.ConstantTimeByteEq(x, y uint8) int:
    int((uint32(x^y) - 1) >> 31) *)
Definition constant_time_byte_eq (x y : N) : N :=
  (((N.lxor x y + 2 ^ 32 - 1) mod 2 ^ 32) / 2 ^ 31)%N.

(** The loop of crypto/subtle.ConstantTimeCompare: v |= x[i] ^ y[i]. *)
Fixpoint xor_fold (x y : string) (v : N) : N :=
  match x, y with
  | String a x', String b y' => xor_fold x' y' (N.lor v (N.lxor (byte a) (byte b)))
  | _, _ => v
  end.

(** crypto/subtle.ConstantTimeCompare *)
Definition constant_time_compare (x y : string) : N :=
  if negb (Nat.eqb (String.length x) (String.length y)) then 0%N
  else constant_time_byte_eq (xor_fold x y 0) 0.

Definition len32 (s : string) : N := int32 (N.of_nat (String.length s)).

(** compare.go:25-34 SecureCompare and 36-46 SecureCompareString (same text over
    []byte and string). *)
Definition secure_compare (given actual : string) : bool :=
  if (constant_time_eq (len32 given) (len32 actual) =? 1)%N
  then (constant_time_compare given actual =? 1)%N
  else if (constant_time_compare actual actual =? 1)%N then false
  else false.
