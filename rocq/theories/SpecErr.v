(** * Vocabulary: failures that are not reported *)

From Verif Require Export Spec.

Definition is_exchange (r : request) : bool :=
  match r with
  | RToken (Some req) => String.eqb (tq_grant_type req) "urn:ietf:params:oauth:grant-type:token-exchange"
  | _ => false
  end.

(** In a revocation the token is not found, the lookup fails or the token cannot be revoked.  In a
    token exchange the audience is not found, no token is generated or it cannot be stored. *)
Definition unreported (r : request) (c : call) (a : answer) : bool :=
  match r, c, a with
  | RRevoke (Some _), CTokGet _ _, ATok (SErr | SNotFound) => true
  | RRevoke (Some _), CTokRevoke _ _, AUnit (SErr | SNotFound) => true
  | RToken _, CResGet _, ARes SNotFound => is_exchange r
  | RToken _, CGenAT _, AGen (None | Some EmptyString) => is_exchange r
  | RToken _, CTokCreate _ _, AUnit (SErr | SNotFound) => is_exchange r
  | _, _, _ => false
  end.
