(** * Token values and where they come from: specification *)

From Verif Require Export Strs Types Prog Storage System Verifiable TokenGen Http HttpSystem.
Local Open Scope nat_scope.

(** What is assumed of the primitives: an HMAC-SHA256 has 32 bytes and strings.ToLower keeps text
    that has no upper-case letters (here only the three prefixes). *)
Definition primitives_ok (C : crypto) : Prop :=
  (forall k m, String.length (cr_hmac C k m) = 32) /\
  forall ty, cr_lower C (kind_prefix ty) = kind_prefix ty.

(** [v] is what the generator with key [secret] makes for [t] from this UUID and some nonce. *)
Definition made (C : crypto) (secret : string) (t : token) (uuid v : string) : Prop :=
  exists nonce, String.length nonce = 12 /\ token_value C (Some secret) (Some t) (Some uuid) (Some nonce) = Some v.

(** The generators of the server are those of the package: what is answered at position [n] of the
    history was made from the UUID [source n]. *)
Definition package_generators (C : crypto) (sa sr : string) (source : nat -> string) (h : list event) : Prop :=
  forall n i t v,
    (nth_error h n = Some (EvCall i (CGenAT t) (AGen (Some v))) -> made C sa t (source n) v) /\
    (nth_error h n = Some (EvCall i (CGenRT t) (AGen (Some v))) -> made C sr t (source n) v).
Definition web_package_generators (C : crypto) (sa sr : string) (source : nat -> string) (hh : list hevent) : Prop :=
  forall n i t v,
    (nth_error hh n = Some (HvCall i (CGenAT t) (AGen (Some v))) -> made C sa t (source n) v) /\
    (nth_error hh n = Some (HvCall i (CGenRT t) (AGen (Some v))) -> made C sr t (source n) v).

(** UUIDs have 16 bytes and the ones drawn at the first [len] positions are different. *)
Definition unique_uuids (source : nat -> string) (len : nat) : Prop :=
  (forall n, String.length (source n) = 16) /\
  forall n m, n < len -> m < len -> source n = source m -> n = m.

(** No random token identifier is drawn twice. *)
Definition unique_ids (h : list event) : Prop :=
  forall n m i j x, nth_error h n = Some (EvCall i (CRand 8) (AStr x)) ->
    nth_error h m = Some (EvCall j (CRand 8) (AStr x)) -> n = m.
Definition web_unique_ids (hh : list hevent) : Prop :=
  forall n m i j x, nth_error hh n = Some (HvCall i (CRand 8) (AStr x)) ->
    nth_error hh m = Some (HvCall j (CRand 8) (AStr x)) -> n = m.

(** The keyed hash under which tokens are stored has no collision on what is stored. *)
Definition slots_collision_free (E : ext) (h : list event) : Prop :=
  forall i iss t a j iss' t' a',
    In (EvCall i (CTokCreate iss t) a) h -> In (EvCall j (CTokCreate iss' t') a') h ->
    x_blake E tok_secret ("solid:token:v1" ++ iss ++ t_value t)%string =
    x_blake E tok_secret ("solid:token:v1" ++ iss' ++ t_value t')%string ->
    (iss ++ t_value t = iss' ++ t_value t')%string.
Definition web_slots_collision_free (E : ext) (hh : list hevent) : Prop :=
  forall i iss t a j iss' t' a',
    In (HvCall i (CTokCreate iss t) a) hh -> In (HvCall j (CTokCreate iss' t') a') hh ->
    x_blake E tok_secret ("solid:token:v1" ++ iss ++ t_value t)%string =
    x_blake E tok_secret ("solid:token:v1" ++ iss' ++ t_value t')%string ->
    (iss ++ t_value t = iss' ++ t_value t')%string.
