(** * sdk/types/string_array.go *)

From Verif Require Import Strs.

Section StringArray.
Context (fold : N -> N).

(** sdk/types/string_array.go:28-36, StringArray.Contains *)
Fixpoint contains (s : list string) (item : string) : bool :=
  match s with
  | [] => false
  | v :: r => if equal_fold fold item v then true else contains r item
  end.

(** sdk/types/string_array.go:39-44, StringArray.AddIfNotContains *)
Definition add_if_not_contains (s : list string) (item : string) : list string :=
  if contains s item then s else (s ++ [item])%list.

(** sdk/types/string_array.go:47-59, StringArray.Remove: the index loop and the
    slice surgery, merged into one pass. *)
Fixpoint remove_first (s : list string) (item : string) : list string :=
  match s with
  | [] => []
  | v :: r => if equal_fold fold item v then r else v :: remove_first r item
  end.

(** sdk/types/string_array.go:62-70, StringArray.HasOneOf *)
Fixpoint has_one_of (s : list string) (items : list string) : bool :=
  match items with
  | [] => false
  | i :: r => if contains s i then true else has_one_of s r
  end.

(** sdk/types/string_array.go:73-84, StringArray.HasAll; [found] is the Go
    variable of that name. *)
Fixpoint has_all_loop (s : list string) (items : list string) (found : bool) : bool :=
  match items with
  | [] => found
  | i :: r =>
      let found := contains s i in
      if negb found then found else has_all_loop s r found
  end.

Definition has_all (s : list string) (items : list string) : bool :=
  has_all_loop s items false.

End StringArray.
