(** * Signed objects in three formats: the theorems

    Written by tools/gen_props.py: the statements are those of the lemmas proved in
    PfFormats.
    Below each theorem, a concrete case that meets its hypotheses. *)

From Verif Require Import MeetFormats.

(** ** C112 Only identified private keys sign, in every format *)

Theorem C112_signed_objects : forall A (L : libraries A) (R : readers A) f b provider claims raw,
  libraries_work L R -> serialize L f b provider claims = Done (Some raw) ->
  exists k c, provider = Some (KKey k) /\ claims = Some c /\
    (* an identified private key *)
    k_id k <> ""%string /\ lib_public L k = false /\
    (* whose owner can be verified, over its identifier, the purpose and these claims *)
    valid R f k raw = true /\ opens R f raw = Some (mkOpened (k_id k) (written_type f b) c).
Proof. exact C112_signed_objects_proof. Qed.
Print Assumptions C112_signed_objects.
Example C112_signed_objects_met : libraries_work plain_libs plain_readers /\
  exists raw, serialize plain_libs (FCwt (Some "ES256"%string)) BAccessToken (Some (KKey own_key)) (Some "claims"%string) = Done (Some raw).
Proof. split; [apply plain_work|]. eexists. reflexivity. Qed.

Theorem C112_purpose_told : forall A (L : libraries A) (R : readers A) f f' b b' provider provider' claims claims' raw,
  libraries_work L R -> same_format f f' ->
  serialize L f b provider claims = Done (Some raw) -> serialize L f' b' provider' claims' = Done (Some raw) ->
  b = b' /\ claims = claims'.
Proof. exact C112_purpose_told_proof. Qed.
Print Assumptions C112_purpose_told.
Example C112_purpose_told_met : libraries_work plain_libs plain_readers /\ same_format (FCwt None) (FCwt (Some "ES256"%string)) /\
  exists raw, serialize plain_libs FPaseto BJarm (Some (KKey own_key)) (Some "claims"%string) = Done (Some raw).
Proof. split; [apply plain_work|]. split; [exact I|]. eexists. reflexivity. Qed.

Theorem C112_signs : forall A (L : libraries A) f b k c,
  k_id k <> ""%string ->
  match f with
  | FJwt => forall raw, lib_jose L (written_type f b) k (match b with BDpop => true | _ => false end) c = Some raw ->
      serialize L f b (Some (KKey k)) (Some c) = Done (Some raw)
  | FCwt alg => forall a p s m, alg = Some a -> lib_public L k = false -> lib_cose_key L alg k = true -> lib_cbor L c = Some p ->
      lib_cose_sign L k (written_type f b) a p "solid" = Some s -> lib_cose_write L (k_id k) (written_type f b) a p s = Some m ->
      serialize L f b (Some (KKey k)) (Some c) = Done (Some (b64url m))
  | FPaseto => forall m t raw, lib_ed25519 L k = true -> lib_json L c = Some m -> lib_footer L (k_id k) (written_type f b) = Some t ->
      lib_paseto L k m t = Some raw -> serialize L f b (Some (KKey k)) (Some c) = Done (Some raw)
  end.
Proof. exact C112_signs_proof. Qed.
Print Assumptions C112_signs.
Example C112_signs_met : k_id own_key <> ""%string /\
  (exists raw, lib_jose plain_libs (written_type FJwt BDpop) own_key true "claims"%string = Some raw) /\
  lib_public plain_libs own_key = false /\ lib_cose_key plain_libs (Some "ES256"%string) own_key = true /\ lib_ed25519 plain_libs own_key = true.
Proof. split; [discriminate|]. split; [eexists; reflexivity|]. repeat split. Qed.

Theorem C112_crash_exactly_partial : forall A (L : libraries A) f b provider claims,
  serialize L f b provider claims = Crashed <->
  exists alg c, f = FCwt alg /\ claims = Some c /\
    (provider = None \/
     alg = None /\ exists k, provider = Some (KKey k) /\ k_id k <> ""%string /\ lib_public L k = false /\ lib_cose_key L None k = true).
Proof. exact C112_crash_exactly_partial_proof. Qed.
Print Assumptions C112_crash_exactly_partial.
Example C112_crash_exactly_partial_met :
  serialize plain_libs (FCwt None) BAccessToken (Some (KKey own_key)) (Some "claims"%string) = Crashed.
Proof. reflexivity. Qed.

Theorem C112_no_provider_refuted : forall A (L : libraries A) alg b c,
  serialize L (FCwt alg) b None (Some c) = Crashed /\
  serialize L FJwt b None (Some c) = Done None /\ serialize L FPaseto b None (Some c) = Done None.
Proof. exact C112_no_provider_refuted_proof. Qed.
Print Assumptions C112_no_provider_refuted.
Example C112_no_provider_refuted_met :
  serialize plain_libs (FCwt (Some "ES256"%string)) BAccessToken None (Some "claims"%string) = Crashed.
Proof. reflexivity. Qed.

Theorem C112_identifier_refuted : forall A (L : libraries A) (R : readers A) alg b k c raw kid',
  libraries_work L R -> (forall kid typ a p s, lib_cose_write L kid typ a p s <> None) ->
  serialize L (FCwt alg) b (Some (KKey k)) (Some c) = Done (Some raw) ->
  exists raw', opens R (FCwt alg) raw' = Some (mkOpened kid' (written_type (FCwt alg) b) c) /\ valid R (FCwt alg) k raw' = true.
Proof. exact C112_identifier_refuted_proof. Qed.
Print Assumptions C112_identifier_refuted.
Example C112_identifier_refuted_met : libraries_work plain_libs plain_readers /\
  (forall kid typ a p s, lib_cose_write plain_libs kid typ a p s <> None) /\
  exists raw, serialize plain_libs (FCwt (Some "ES256"%string)) BAccessToken (Some (KKey own_key)) (Some "claims"%string) = Done (Some raw).
Proof. split; [apply plain_work|]. split; [discriminate|]. eexists. reflexivity. Qed.

Theorem C112_jwt_type_refuted : forall A (L : libraries A) (R : readers A) b provider claims raw o,
  libraries_work L R -> serialize L FJwt b provider claims = Done (Some raw) -> opens R FJwt raw = Some o ->
  op_typ o = purpose_name b /\ op_typ o <> (purpose_name b ++ "+jwt")%string.
Proof. exact C112_jwt_type_refuted_proof. Qed.
Print Assumptions C112_jwt_type_refuted.
Example C112_jwt_type_refuted_met : libraries_work plain_libs plain_readers /\
  exists raw o, serialize plain_libs FJwt BDpop (Some (KKey own_key)) (Some "claims"%string) = Done (Some raw) /\ opens plain_readers FJwt raw = Some o.
Proof. split; [apply plain_work|]. do 2 eexists. split; reflexivity. Qed.
