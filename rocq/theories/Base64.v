(** * encoding/base64.RawURLEncoding (unpadded base64url), as used by
    sdk/pkce/verifier.go:48-49, 60-71, sdk/dpop/verifier.go:137, 237,
    server/services/token/grant_authorization_code.go:142 and
    sdk/token/jwt/token_adapter.go:70.  A Go standard library function, modelled
    because PKCE lengths and alphabets depend on it. *)

From Verif Require Import Strs.

(** The alphabet A-Z a-z 0-9 - _ *)
Definition b64_char (n : N) : ascii :=
  if (n <? 26)%N then ascii_of_N (65 + n)
  else if (n <? 52)%N then ascii_of_N (71 + n)
  else if (n <? 62)%N then ascii_of_N (n - 4)
  else if (n =? 62)%N then "-"%char else "_"%char.

Definition b64_val (a : ascii) : option N :=
  let b := byte a in
  if in_range b 65 90 then Some (b - 65)%N
  else if in_range b 97 122 then Some (b - 71)%N
  else if in_range b 48 57 then Some (b + 4)%N
  else if (b =? 45)%N then Some 62%N
  else if (b =? 95)%N then Some 63%N
  else None.

(** base64.RawURLEncoding.EncodeToString *)
Fixpoint b64url (s : string) : string :=
  match s with
  | EmptyString => EmptyString
  | String a EmptyString =>
      let x := byte a in
      String (b64_char (x / 4)) (String (b64_char ((x mod 4) * 16)) EmptyString)
  | String a (String b EmptyString) =>
      let x := byte a in let y := byte b in
      String (b64_char (x / 4))
        (String (b64_char ((x mod 4) * 16 + y / 16))
           (String (b64_char ((y mod 16) * 4)) EmptyString))
  | String a (String b (String c r)) =>
      let x := byte a in let y := byte b in let z := byte c in
      String (b64_char (x / 4))
        (String (b64_char ((x mod 4) * 16 + y / 16))
           (String (b64_char ((y mod 16) * 4 + z / 64))
              (String (b64_char (z mod 64)) (b64url r))))
  end.

(** base64.RawURLEncoding.DecodeString: line breaks are skipped and the unused
    low bits of the last character are ignored, as Go does outside Strict mode. *)
Definition is_newline (a : ascii) : bool := (byte a =? 10)%N || (byte a =? 13)%N.

Fixpoint strip_newlines (s : string) : string :=
  match s with
  | EmptyString => EmptyString
  | String a r => if is_newline a then strip_newlines r else String a (strip_newlines r)
  end.

Fixpoint b64_dec (s : string) : option string :=
  match s with
  | EmptyString => Some EmptyString
  | String _ EmptyString => None
  | String a (String b EmptyString) =>
      match b64_val a, b64_val b with
      | Some x, Some y => Some (str1 (ascii_of_N (x * 4 + y / 16)))
      | _, _ => None
      end
  | String a (String b (String c EmptyString)) =>
      match b64_val a, b64_val b, b64_val c with
      | Some x, Some y, Some z =>
          Some (str2 (ascii_of_N (x * 4 + y / 16)) (ascii_of_N ((y mod 16) * 16 + z / 4)))
      | _, _, _ => None
      end
  | String a (String b (String c (String d r))) =>
      match b64_val a, b64_val b, b64_val c, b64_val d, b64_dec r with
      | Some x, Some y, Some z, Some w, Some t =>
          Some (String (ascii_of_N (x * 4 + y / 16))
                  (String (ascii_of_N ((y mod 16) * 16 + z / 4))
                     (String (ascii_of_N ((z mod 4) * 64 + w)) t)))
      | _, _, _, _, _ => None
      end
  end.

Definition b64url_decode (s : string) : option string := b64_dec (strip_newlines s).
