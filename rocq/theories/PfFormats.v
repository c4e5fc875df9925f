(** * Signed objects in three formats: the proofs *)

From Verif Require Export SpecFormats.

Ltac noerr H := repeat match type of H with
  | context [match ?x with _ => _ end] => destruct x eqn:?; try discriminate H
  end.

Lemma empty_ne s : is_empty s = false -> s <> ""%string.
Proof. destruct s; cbn; congruence. Qed.

Lemma builder_names b : builder_type b = purpose_name b.
Proof. destruct b; reflexivity. Qed.

Lemma C112_signed_objects_proof : forall A (L : libraries A) (R : readers A) f b provider claims raw,
  libraries_work L R -> serialize L f b provider claims = Done (Some raw) ->
  exists k c, provider = Some (KKey k) /\ claims = Some c /\
    (* an identified private key *)
    k_id k <> ""%string /\ lib_public L k = false /\
    (* whose owner can be verified, over its identifier, the purpose and these claims *)
    valid R f k raw = true /\ opens R f raw = Some (mkOpened (k_id k) (written_type f b) c).
Proof.
  intros A L R f b provider claims raw (WJ & WC & WP & WE) H.
  destruct f as [|alg|]; cbn [serialize] in H; unfold written_type; rewrite <- builder_names.
  - unfold jwt_sign, jwt_serialize in H. noerr H. injection H as H. subst.
    destruct (WJ _ _ _ _ _ H) as (P1 & P2 & P3). do 2 eexists. split; [reflexivity|]. split; [reflexivity|]. cbn. auto 10 using empty_ne.
  - unfold cwt_sign in H. noerr H. injection H as <-. subst.
    match goal with X : lib_cose_write _ _ _ _ _ _ = Some _, Y : lib_cose_sign _ _ _ _ _ _ = Some _, Z : lib_cbor _ _ = Some _ |- _ =>
      destruct (WC _ _ _ _ _ _ _ _ Z Y X) as (P1 & P2) end.
    do 2 eexists. split; [reflexivity|]. split; [reflexivity|]. cbn. auto 10 using empty_ne.
  - unfold paseto_sign in H. noerr H. injection H as H. subst.
    match goal with Y : lib_footer _ _ _ = Some _, Z : lib_json _ _ = Some _ |- _ =>
      destruct (WP _ _ _ _ _ _ _ Z Y H) as (P1 & P2) end.
    match goal with Z : negb _ = false |- _ => apply Bool.negb_false_iff in Z end.
    do 2 eexists. split; [reflexivity|]. split; [reflexivity|]. cbn. auto 10 using empty_ne.
Qed.

Lemma written_type_inj f b b' : written_type f b = written_type f b' -> b = b'.
Proof. destruct f, b, b'; cbn; intros H; try reflexivity; discriminate H. Qed.

Lemma C112_purpose_told_proof : forall A (L : libraries A) (R : readers A) f f' b b' provider provider' claims claims' raw,
  libraries_work L R -> same_format f f' ->
  serialize L f b provider claims = Done (Some raw) -> serialize L f' b' provider' claims' = Done (Some raw) ->
  b = b' /\ claims = claims'.
Proof.
  intros A L R f f' b b' provider provider' claims claims' raw W Hf H1 H2.
  destruct (C112_signed_objects_proof _ _ _ _ _ _ _ _ W H1) as (k & c & _ & -> & _ & _ & _ & O1).
  destruct (C112_signed_objects_proof _ _ _ _ _ _ _ _ W H2) as (k' & c' & _ & -> & _ & _ & _ & O2).
  destruct f, f'; try contradiction; cbn in O1, O2; rewrite O1 in O2; injection O2 as _ T ->; (split; [|reflexivity]).
  - exact (written_type_inj FJwt _ _ T).
  - exact (written_type_inj (FCwt None) _ _ T).
  - exact (written_type_inj FPaseto _ _ T).
Qed.

(** When a serializer signs. *)
Lemma C112_signs_proof : forall A (L : libraries A) f b k c,
  k_id k <> ""%string ->
  match f with
  | FJwt => forall raw, lib_jose L (written_type f b) k (match b with BDpop => true | _ => false end) c = Some raw ->
      serialize L f b (Some (KKey k)) (Some c) = Done (Some raw)
  | FCwt alg => forall a p s m, alg = Some a -> lib_public L k = false -> lib_cose_key L alg k = true -> lib_cbor L c = Some p ->
      lib_cose_sign L k (written_type f b) a p "solid" = Some s -> lib_cose_write L (k_id k) (written_type f b) a p s = Some m ->
      serialize L f b (Some (KKey k)) (Some c) = Done (Some (b64url m))
  | FPaseto => forall m t raw, lib_ed25519 L k = true -> lib_json L c = Some m -> lib_footer L (k_id k) (written_type f b) = Some t ->
      lib_paseto L k m t = Some raw -> serialize L f b (Some (KKey k)) (Some c) = Done (Some raw)
  end.
Proof.
  intros A L f b k c Hk.
  assert (E : is_empty (k_id k) = false) by (destruct (k_id k); [congruence|reflexivity]).
  destruct f as [|alg|]; cbn [serialize written_type]; rewrite <- builder_names.
  - intros raw H. unfold jwt_sign, jwt_serialize. rewrite E. unfold builder_embeds. rewrite H. reflexivity.
  - intros a p s m -> H1 H2 H3 H4 H5. unfold cwt_sign. rewrite E, H1, H2, H3. cbn [negb]. rewrite H4, H5. reflexivity.
  - intros m t raw H1 H2 H3 H4. unfold paseto_sign. rewrite E, H1, H2. cbn [negb]. rewrite H3, H4. reflexivity.
Qed.

Lemma C112_crash_exactly_partial_proof : forall A (L : libraries A) f b provider claims,
  serialize L f b provider claims = Crashed <->
  exists alg c, f = FCwt alg /\ claims = Some c /\
    (provider = None \/
     alg = None /\ exists k, provider = Some (KKey k) /\ k_id k <> ""%string /\ lib_public L k = false /\ lib_cose_key L None k = true).
Proof.
  intros A L f b provider claims. split.
  - intros H. destruct f as [|alg|]; cbn [serialize] in H.
    + unfold jwt_sign in H. noerr H.
    + unfold cwt_sign in H. noerr H.
      * subst. match goal with Z : negb _ = false |- _ => apply Bool.negb_false_iff in Z end.
        do 2 eexists. split; [reflexivity|]. split; [reflexivity|]. right. split; [reflexivity|].
        eexists. split; [reflexivity|]. auto using empty_ne.
      * subst. do 2 eexists. auto.
    + unfold paseto_sign in H. noerr H.
  - intros (alg & c & -> & -> & [->|(-> & k & -> & Hk & H1 & H2)]); [reflexivity|].
    cbn. rewrite H1, H2. destruct (k_id k); [congruence|reflexivity].
Qed.

Lemma C112_no_provider_refuted_proof : forall A (L : libraries A) alg b c,
  serialize L (FCwt alg) b None (Some c) = Crashed /\
  serialize L FJwt b None (Some c) = Done None /\ serialize L FPaseto b None (Some c) = Done None.
Proof. intros. repeat split. Qed.

(** The key identifier of a CWT can be exchanged by anybody. *)
Lemma C112_identifier_refuted_proof : forall A (L : libraries A) (R : readers A) alg b k c raw kid',
  libraries_work L R -> (forall kid typ a p s, lib_cose_write L kid typ a p s <> None) ->
  serialize L (FCwt alg) b (Some (KKey k)) (Some c) = Done (Some raw) ->
  exists raw', opens R (FCwt alg) raw' = Some (mkOpened kid' (written_type (FCwt alg) b) c) /\ valid R (FCwt alg) k raw' = true.
Proof.
  intros A L R alg b k c raw kid' (_ & WC & _) Hw H. cbn [serialize] in H. unfold cwt_sign in H. noerr H. injection H as <-.
  match goal with Y : lib_cose_sign _ _ _ ?al _ _ = Some ?s, Z : lib_cbor _ _ = Some ?p |- _ =>
    destruct (lib_cose_write L kid' (builder_type b ++ "+cwt") al p s) as [m|] eqn:X; [|exfalso; eapply Hw; exact X];
    destruct (WC _ _ _ _ _ _ _ _ Z Y X) as (P1 & P2) end.
  exists (b64url m). unfold written_type. rewrite <- builder_names. cbn. auto.
Qed.

(** The type of a JWT does not name the format, as the readers of this code base demand. *)
Lemma C112_jwt_type_refuted_proof : forall A (L : libraries A) (R : readers A) b provider claims raw o,
  libraries_work L R -> serialize L FJwt b provider claims = Done (Some raw) -> opens R FJwt raw = Some o ->
  op_typ o = purpose_name b /\ op_typ o <> (purpose_name b ++ "+jwt")%string.
Proof.
  intros A L R b provider claims raw o W H Ho.
  destruct (C112_signed_objects_proof _ _ _ _ _ _ _ _ W H) as (k & c & _ & _ & _ & _ & _ & O). rewrite O in Ho. injection Ho as <-.
  cbn. split; [reflexivity|]. destruct b; discriminate.
Qed.
