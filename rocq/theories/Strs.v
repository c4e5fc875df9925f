(** * Go strings: the parts of package strings, unicode and unicode/utf8
    that zntrio/solid relies on.

    A Go string is a sequence of bytes, so it is modelled by Coq's [string]
    (a sequence of 8-bit [ascii]); [String.length] is Go's [len]. *)

From Coq Require Export List Bool NArith ZArith Ascii String Lia.
Export ListNotations.
Open Scope string_scope.
Open Scope list_scope.

Arguments String.eqb : simpl never.
Arguments String.append : simpl never.
Arguments N.add : simpl never.
Arguments N.mul : simpl never.
Arguments N.div : simpl never.
Arguments N.ltb : simpl never.
Arguments N.leb : simpl never.
Arguments N.eqb : simpl never.
Arguments N.sub : simpl never.

(** Byte value of a character. *)
Definition byte (a : ascii) : N := N_of_ascii a.

(** unicode/utf8.RuneError *)
Definition rune_error : N := 65533.

Definition in_range (b lo hi : N) : bool := (lo <=? b)%N && (b <=? hi)%N.

(** A continuation byte, 10xxxxxx. *)
Definition cont (a : ascii) : bool := in_range (byte a) 128 191.

(** Size of the sequence announced by a leading byte, with the range its
    second byte must lie in: the tables [first] and [acceptRanges] of Go's
    unicode/utf8. *)
Definition lead (b : N) : option (nat * N * N) :=
  if in_range b 194 223 then Some (2%nat, 128%N, 191%N)
  else if (b =? 224)%N then Some (3%nat, 160%N, 191%N)
  else if in_range b 225 236 then Some (3%nat, 128%N, 191%N)
  else if (b =? 237)%N then Some (3%nat, 128%N, 159%N)
  else if in_range b 238 239 then Some (3%nat, 128%N, 191%N)
  else if (b =? 240)%N then Some (4%nat, 144%N, 191%N)
  else if in_range b 241 243 then Some (4%nat, 128%N, 191%N)
  else if (b =? 244)%N then Some (4%nat, 128%N, 143%N)
  else None.

Definition str1 (a : ascii) : string := String a EmptyString.
Definition str2 (a b : ascii) : string := String a (str1 b).
Definition str3 (a b c : ascii) : string := String a (str2 b c).
Definition str4 (a b c d : ascii) : string := String a (str3 b c d).

(** The runes Go's [for range] / DecodeRuneInString sees in a string, each with
    the bytes it was decoded from.  An invalid byte is one rune U+FFFD of
    width 1. *)
Fixpoint segs (s : string) : list (N * string) :=
  match s with
  | EmptyString => []
  | String a0 s0 =>
      if (byte a0 <? 128)%N then (byte a0, str1 a0) :: segs s0
      else
        match lead (byte a0) with
        | None => (rune_error, str1 a0) :: segs s0
        | Some (sz, lo, hi) =>
            match s0 with
            | EmptyString => [(rune_error, str1 a0)]
            | String a1 s1 =>
                if negb (in_range (byte a1) lo hi)
                then (rune_error, str1 a0) :: segs s0
                else
                  match sz with
                  | 2 =>
                      ((byte a0 - 192) * 64 + (byte a1 - 128), str2 a0 a1)%N
                        :: segs s1
                  | _ =>
                    match s1 with
                    | EmptyString => (rune_error, str1 a0) :: segs s0
                    | String a2 s2 =>
                        if negb (cont a2)
                        then (rune_error, str1 a0) :: segs s0
                        else
                          match sz with
                          | 3 =>
                              ((byte a0 - 224) * 4096 + (byte a1 - 128) * 64
                                 + (byte a2 - 128), str3 a0 a1 a2)%N
                                :: segs s2
                          | _ =>
                              match s2 with
                              | EmptyString => (rune_error, str1 a0) :: segs s0
                              | String a3 s3 =>
                                  if negb (cont a3)
                                  then (rune_error, str1 a0) :: segs s0
                                  else
                                    ((byte a0 - 240) * 262144
                                       + (byte a1 - 128) * 4096
                                       + (byte a2 - 128) * 64
                                       + (byte a3 - 128), str4 a0 a1 a2 a3)%N
                                      :: segs s3
                              end
                          end
                    end
                  end
            end
        end
  end.

Definition runes (s : string) : list N := map fst (segs s).

(** utf8.RuneCountInString *)
Definition rune_count (s : string) : nat := List.length (segs s).

Fixpoint concat_s (l : list string) : string :=
  match l with [] => "" | x :: r => x ++ concat_s r end%string.

(** strings.EqualFold.  [fold] maps a rune to a representative of its orbit
    under unicode.SimpleFold; Go compares runes by orbit.  The Unicode table
    itself is not modelled, so [fold] is a parameter everywhere. *)
Fixpoint list_eqb (a b : list N) : bool :=
  match a, b with
  | [], [] => true
  | x :: a', y :: b' => (x =? y)%N && list_eqb a' b'
  | _, _ => false
  end.

Definition equal_fold (fold : N -> N) (s t : string) : bool :=
  list_eqb (map fold (runes s)) (map fold (runes t)).

(** unicode.IsSpace (the complete White_Space table). *)
Definition is_space (r : N) : bool :=
  in_range r 9 13 || (r =? 32)%N || (r =? 133)%N || (r =? 160)%N
  || (r =? 5760)%N || in_range r 8192 8202 || (r =? 8232)%N || (r =? 8233)%N
  || (r =? 8239)%N || (r =? 8287)%N || (r =? 12288)%N.

(** strings.Fields: maximal runs of non-space runes, as substrings. *)
Fixpoint fields_segs (l : list (N * string)) (cur : option string) : list string :=
  match l with
  | [] => match cur with None => [] | Some c => [c] end
  | (r, ch) :: l' =>
      if is_space r then
        match cur with
        | None => fields_segs l' None
        | Some c => c :: fields_segs l' None
        end
      else
        fields_segs l' (Some (match cur with None => ch | Some c => c ++ ch end)%string)
  end.

Definition fields (s : string) : list string := fields_segs (segs s) None.

(** strings.Join(l, " ") and the general separator version. *)
Fixpoint join_with (sep : string) (l : list string) : string :=
  match l with
  | [] => ""
  | [x] => x
  | x :: r => (x ++ sep ++ join_with sep r)%string
  end.

Definition join_sp (l : list string) : string := join_with " " l.

(** strings.TrimSpace *)
Fixpoint drop_space (l : list (N * string)) : list (N * string) :=
  match l with
  | [] => []
  | (r, ch) :: l' => if is_space r then drop_space l' else l
  end.

Definition trim_space (s : string) : string :=
  concat_s (map snd (rev (drop_space (rev (drop_space (segs s)))))).

(** fmt.Sprintf("%x", bytes): two lower-case hexadecimal digits per byte. *)
Definition hex_digit (n : N) : ascii :=
  if (n <? 10)%N then ascii_of_N (48 + n) else ascii_of_N (87 + n).

Fixpoint hex (s : string) : string :=
  match s with
  | EmptyString => EmptyString
  | String a s' =>
      String (hex_digit (byte a / 16)) (String (hex_digit (byte a mod 16)) (hex s'))
  end.

(** ASCII case mapping, for the places where the code only ever meets ASCII. *)
Definition ascii_lower (b : N) : N := if in_range b 65 90 then (b + 32)%N else b.
Definition ascii_upper (b : N) : N := if in_range b 97 122 then (b - 32)%N else b.

(** A folding function that agrees with Unicode on ASCII, on U+212A (Kelvin
    sign, which folds to k) and on U+017F (long s, which folds to s).  Used for
    concrete witnesses only. *)
Definition fold_ascii (r : N) : N :=
  if (r =? 8490)%N then 107%N
  else if (r =? 383)%N then 115%N
  else ascii_lower r.

Definition is_empty (s : string) : bool :=
  match s with EmptyString => true | _ => false end.
