(** * Vocabulary: the client registry *)

From Verif Require Export Registry Spec.
From Coq Require Import Permutation.

(** A record the registry holds. *)
Definition held (st : registry) (a : nat) : Prop := exists id, rg_backend st id = Some a.

(** The record an event writes to. *)
Definition touched (e : reg_event) : option nat :=
  match e with Fill a _ => Some a | Enrol p _ => p end.

(** Callers that leave a record alone once it is registered. *)
Definition leave_alone (st : registry) (es : list reg_event) : Prop :=
  forall before e later a, es = before ++ e :: later -> touched e = Some a -> ~ held (reg_after st before) a.

(** No registration draws this identifier. *)
Definition never_drawn (id : string) (es : list reg_event) : Prop :=
  forall p, ~ In (Enrol p id) es.

(** Every client carries the identifier it is found by. *)
Definition own_identifiers (st : registry) : Prop := forall id c, reg_get st id = Some c -> cl_id c = id.

(** Every other field. *)
Definition same_registration (c d : client) : Prop :=
  cl_type c = cl_type d /\ cl_redirect_uris c = cl_redirect_uris d /\ cl_response_types c = cl_response_types d /\
  cl_response_modes c = cl_response_modes d /\ cl_grant_types c = cl_grant_types d /\ cl_name c = cl_name d /\
  cl_jwks c = cl_jwks d /\ cl_subject_type c = cl_subject_type d /\ cl_sector c = cl_sector d /\ cl_dpop_bound c = cl_dpop_bound d.

(** An order in which a loop over the registry can go: every client once. *)
Definition an_order (st : registry) (order : list string) : Prop :=
  NoDup order /\ forall id, In id order <-> reg_get st id <> None.

(** No two clients have names that are equal up to case. *)
Definition distinct_names (fold : N -> N) (st : registry) : Prop :=
  forall id id' c c', reg_get st id = Some c -> reg_get st id' = Some c' -> map fold (runes (cl_name c)) = map fold (runes (cl_name c')) -> id = id'.
Definition same_name (fold : N -> N) (a b : string) : Prop := map fold (runes a) = map fold (runes b).
