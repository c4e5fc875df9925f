(** * Vocabulary for the statements about the metadata endpoint *)

From Verif Require Export Metadata.

(** [layers n v]: [v] is a signature over the metadata with a signed_metadata that is itself such a
    signature, and so on [n] times, down to the metadata without one. *)
Inductive layers (sign : N -> string -> string) : nat -> string -> Prop :=
| layers_none : layers sign 0 ""
| layers_sign n k v : layers sign n v -> layers sign (S n) (sign k v).

(** Between the arrival of request [i] and its answer nothing of another request happens. *)
Definition event_of (e : md_event) : nat :=
  match e with MdCame i | MdSent i _ | MdFailed i | MdStep i => i end.
Definition undisturbed (h : list md_event) (i : nat) : Prop :=
  exists before during after, h = (before ++ MdCame i :: during ++ after)%list /\
    (forall e, In e during -> event_of e = i) /\ (forall e, In e after -> event_of e <> i).
