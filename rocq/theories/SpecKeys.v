(** * Vocabulary for the statements about the keys of the server and the profile of its clients *)

From Verif Require Export Keys SpecTok.

(** What is expected of the JOSE library about keys: a key that it accepts as private, without its
    secret, is one that it accepts as public. *)
Definition point_stays (sound : string -> string -> string -> option string -> bool) : Prop :=
  forall crv x y d, sound crv x y d = true -> sound crv x y None = true.

(** [k'] is the public part of [k]: the same curve, point, identifier, algorithm and use, and no
    secret. *)
Definition public_part (k k' : ec_key) : Prop :=
  ec_crv k' = ec_crv k /\ ec_x k' = ec_x k /\ ec_y k' = ec_y k /\ ec_d k' = None /\
  ec_kid k' = ec_kid k /\ ec_alg k' = ec_alg k /\ ec_use k' = ec_use k.

(** [of_ec] keeps identifier and use, and [pub] makes the material of the public part. *)
Definition keeps (of_ec : ec_key -> jwk) (pub : jwk -> jwk) : Prop :=
  (forall k, k_id (of_ec k) = ec_kid k /\ k_use (of_ec k) = ec_use k) /\
  forall k k', ec_crv k' = ec_crv k -> ec_x k' = ec_x k -> ec_y k' = ec_y k -> ec_d k' = None ->
    k_mat (of_ec k') = k_mat (pub (of_ec k)).

(** The server was started with the document [doc]: it signs with [k] and serves [ks]. *)
Definition started sound (doc : jdoc) (k : ec_key) (ks : list ec_key) : Prop :=
  key_provider sound doc = Done k /\ key_set_provider sound doc = Done ks.

(** The document without the member of this name. *)
Definition without (name : string) (d : jdoc) : jdoc := filter (fun m => negb (String.eqb (fst m) name)) d.

(** Calls of PublicKeys on one client, each answered by the server that serves [ks]. *)
Definition answered_by sound of_ec (ks : list ec_key) (cs : list keys_call) : Prop :=
  forall c, In c cs -> pk_answer c = read_response sound of_ec (jwks_handler (Some (Some ks))).

(** The client is registered with the grant types and response types of its application type. *)
Definition strictly_registered (name : string) (c : client) : Prop :=
  exists p, strict_profile name = Some p /\ cl_grant_types c = pr_grants p /\ cl_response_types c = pr_responses p.

(** The names of grants and response types differ even when their case is ignored. *)
Definition names_apart (E : ext) : Prop :=
  forall a b, In a (["code"; "token"] ++ announced_grant_types)%list -> In b (["code"; "token"] ++ announced_grant_types)%list ->
    fold_eq (x_fold E) a b -> a = b.
