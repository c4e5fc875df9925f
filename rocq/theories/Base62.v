(** * sdk/token/verifiable/helpers.go: padded base62 numbers

    math/big is a Go standard library package; the three functions the code calls are
    modelled here on unbounded integers. *)

From Verif Require Import Strs Prog.
Local Open Scope N_scope.

(** big.Int.SetBytes: a big-endian unsigned number. *)
Fixpoint be_num (acc : N) (s : string) : N :=
  match s with
  | EmptyString => acc
  | String a r => be_num (acc * 256 + byte a) r
  end.

(** math/big digits: 0-9 a-z A-Z. *)
Definition digit62 (d : N) : ascii :=
  if d <? 10 then ascii_of_N (48 + d)
  else if d <? 36 then ascii_of_N (87 + d)
  else ascii_of_N (29 + d).

Definition val62 (a : ascii) : option N :=
  let b := byte a in
  if in_range b 48 57 then Some (b - 48)
  else if in_range b 97 122 then Some (b - 87)
  else if in_range b 65 90 then Some (b - 29)
  else None.

(** The digits of [n], most significant first, in front of [acc]; [fuel] is at least the
    number of binary digits of [n]. *)
Fixpoint digits62 (fuel : nat) (n : N) (acc : string) : string :=
  match fuel with
  | O => acc
  | S f => if n =? 0 then acc else digits62 f (n / 62) (String (digit62 (n mod 62)) acc)
  end.

(** big.Int.Text(62) of a number that is not negative. *)
Definition text62 (n : N) : string :=
  if n =? 0 then "0"%string else digits62 (N.size_nat n) n "".

(** strings.Repeat("0", n) *)
Fixpoint zeros (n : nat) : string :=
  match n with O => ""%string | S m => String "0"%char (zeros m) end.

(** helpers.go:17-23 padLeft *)
Definition pad_left (s : string) (length : nat) : string :=
  (zeros (length - String.length s) ++ s)%string.

(** helpers.go:11-15 toPaddedBase62 *)
Definition to_padded_base62 (input : string) (length : nat) : string :=
  pad_left (text62 (be_num 0 input)) length.

Fixpoint num62 (acc : N) (s : string) : option N :=
  match s with
  | EmptyString => Some acc
  | String a r => match val62 a with Some d => num62 (acc * 62 + d) r | None => None end
  end.

(** The absolute value big.Int.SetString(s, 62) yields: an optional sign, then at least one
    digit and nothing else.  FillBytes, its only use, ignores the sign. *)
Definition set_string62 (s : string) : option N :=
  let digits := match s with
    | String a r => if (byte a =? 43) || (byte a =? 45) then r else s
    | EmptyString => s
    end in
  match digits with EmptyString => None | _ => num62 0 digits end.

(** big.Int.FillBytes: the number as [len] big-endian bytes; panics if it does not fit. *)
Fixpoint be_bytes (len : nat) (n : N) (acc : string) : string :=
  match len with
  | O => acc
  | S l => be_bytes l (n / 256) (String (ascii_of_N (n mod 256)) acc)
  end.

Definition fill_bytes (len : nat) (n : N) : outcome string :=
  if n <? 256 ^ N.of_nat len then Done (be_bytes len n "") else Crashed.

(** helpers.go:25-35 parsePaddedBase62; [Done None] is an error. *)
Definition parse_padded_base62 (s : string) (length : nat) : outcome (option string) :=
  match set_string62 s with
  | None => Done None
  | Some n => match fill_bytes length n with Done b => Done (Some b) | Crashed => Crashed end
  end.
