(** * Discovery (proofs) *)

From Verif Require Export Discovery.

Lemma client_made meta keys issuer d k ks exp :
  meta (issuer ++ "/.well-known/oauth-authorization-server")%string = MetaDoc d ->
  pk_answer (keys (sm_jwks d)) = JwksDoc (Some (k :: ks)) exp -> (exp = 0 \/ pk_now2 (keys (sm_jwks d)) <= exp)%N ->
  exists st, new_client meta keys issuer = Done (Some (mkSdk issuer d st)) /\ cs_jwks st = Some (k :: ks).
Proof.
  intros Hm Hk He. unfold new_client. rewrite Hm. unfold public_keys. cbn. rewrite Hk.
  destruct (_ && _)%bool eqn:B.
  - exfalso. apply andb_prop in B as [B1 B2]. apply N.ltb_lt in B1, B2. destruct He as [->|He]; [lia|lia].
  - eexists. split; reflexivity.
Qed.

Lemma C108_discovery_proof : forall meta keys issuer signed k ks,
  meta (issuer ++ "/.well-known/oauth-authorization-server")%string = MetaDoc (announced issuer signed) ->
  pk_answer (keys (issuer ++ "/keys")%string) = JwksDoc (Some (k :: ks)) 0 ->
  exists c token introspect, new_client meta keys issuer = Done (Some c) /\
    credentials_url c = (issuer ++ token)%string /\ mux token = Some (SEndpoint EToken) /\
    introspection_url c = (issuer ++ introspect)%string /\ mux introspect = Some (SEndpoint EIntrospect) /\
    assertion_audience c = sm_issuer (announced issuer signed) /\ cs_jwks (sdk_keys c) = Some (k :: ks) /\
    mux "/.well-known/oauth-authorization-server" = Some SMetadata /\ mux "/keys" = Some SKeys.
Proof.
  intros meta keys issuer signed k ks Hm Hk.
  destruct (client_made meta keys issuer (announced issuer signed) k ks 0 Hm Hk (or_introl eq_refl)) as (st & H & Hs).
  exists (mkSdk issuer (announced issuer signed) st), "/token"%string, "/token/introspect"%string. repeat split; auto.
Qed.

Lemma C108_usable_proof : forall meta keys issuer c,
  new_client meta keys issuer = Done (Some c) ->
  sdk_issuer c = issuer /\
  meta (issuer ++ "/.well-known/oauth-authorization-server")%string = MetaDoc (sdk_metadata c) /\
  exists k ks exp, pk_answer (keys (sm_jwks (sdk_metadata c))) = JwksDoc (Some (k :: ks)) exp /\
    (exp = 0 \/ pk_now2 (keys (sm_jwks (sdk_metadata c))) <= exp)%N /\ cs_jwks (sdk_keys c) = Some (k :: ks).
Proof.
  intros meta keys issuer c H. unfold new_client in H. destruct (meta _) as [| |d] eqn:Hm; try discriminate.
  unfold public_keys in H. cbn in H. destruct (pk_answer (keys (sm_jwks d))) as [|[[|k ks]|] exp] eqn:Hk; try discriminate.
  destruct (_ && _)%bool eqn:B; [discriminate|]. injection H as <-. cbn. split; [reflexivity|]. split; [reflexivity|].
  exists k, ks, exp. split; [exact Hk|]. split; [|reflexivity].
  apply andb_false_iff in B as [B|B]; apply N.ltb_ge in B; [left; lia|right; lia].
Qed.

Lemma C108_issuer_refuted_proof : forall meta keys issuer d k ks,
  meta (issuer ++ "/.well-known/oauth-authorization-server")%string = MetaDoc d -> sm_issuer d <> issuer ->
  pk_answer (keys (sm_jwks d)) = JwksDoc (Some (k :: ks)) 0 ->
  exists c, new_client meta keys issuer = Done (Some c) /\ sm_issuer (sdk_metadata c) <> sdk_issuer c /\
    credentials_url c = sm_token d /\ introspection_url c = sm_introspect d.
Proof.
  intros meta keys issuer d k ks Hm Hi Hk.
  destruct (client_made meta keys issuer d k ks 0 Hm Hk (or_introl eq_refl)) as (st & H & Hs).
  eexists. split; [exact H|]. cbn. auto.
Qed.

Lemma C108_null_refuted_proof : forall meta keys issuer,
  meta (issuer ++ "/.well-known/oauth-authorization-server")%string = MetaNull -> new_client meta keys issuer = Crashed.
Proof. intros meta keys issuer Hm. unfold new_client. rewrite Hm. reflexivity. Qed.

Lemma C108_crash_exactly_partial_proof : forall meta keys issuer,
  new_client meta keys issuer = Crashed <->
  meta (issuer ++ "/.well-known/oauth-authorization-server")%string = MetaNull \/
  exists d exp, meta (issuer ++ "/.well-known/oauth-authorization-server")%string = MetaDoc d /\
    pk_answer (keys (sm_jwks d)) = JwksDoc None exp.
Proof.
  intros meta keys issuer. unfold new_client. destruct (meta _) as [| |d].
  - split; [discriminate|]. intros [H|(d & exp & H & _)]; discriminate.
  - split; [left; reflexivity|reflexivity].
  - unfold public_keys. cbn [cs_jwks fresh_client]. split.
    + intros H. right. exists d. destruct (pk_answer (keys (sm_jwks d))) as [|[[|k ks]|] exp]; try discriminate.
      * destruct (_ && _)%bool; discriminate.
      * exists exp. auto.
    + intros [H|(d' & exp & H & Hk)]; [discriminate|]. injection H as <-. rewrite Hk. reflexivity.
Qed.

Lemma C108_fails_exactly_proof : forall meta keys issuer,
  new_client meta keys issuer = Done None <->
  meta (issuer ++ "/.well-known/oauth-authorization-server")%string = MetaFails \/
  exists d, meta (issuer ++ "/.well-known/oauth-authorization-server")%string = MetaDoc d /\
    let a := pk_answer (keys (sm_jwks d)) in
    a = JwksFails \/ (exists exp, a = JwksDoc (Some []) exp) \/
    exists ks exp, a = JwksDoc (Some ks) exp /\ (0 < exp < pk_now2 (keys (sm_jwks d)))%N.
Proof.
  intros meta keys issuer. unfold new_client. destruct (meta _) as [| |d].
  - split; [left; reflexivity|reflexivity].
  - split; [discriminate|]. intros [H|(d & H & _)]; discriminate.
  - unfold public_keys. cbn [cs_jwks fresh_client]. split.
    + intros H. right. exists d. split; [reflexivity|]. cbv zeta. destruct (pk_answer (keys (sm_jwks d))) as [|[[|k ks]|] exp]; try discriminate; eauto.
      destruct (_ && _)%bool eqn:B; [|discriminate]. apply andb_prop in B as [B1 B2]. apply N.ltb_lt in B1, B2. right; right. eauto 6.
    + intros [H|(d' & H & Hk)]; [discriminate|]. injection H as <-. cbv zeta in Hk.
      destruct Hk as [Hk|[(exp & Hk)|(ks & exp & Hk & H1 & H2)]]; rewrite Hk; try reflexivity.
      destruct ks; [reflexivity|]. apply N.ltb_lt in H1, H2. rewrite H1, H2. reflexivity.
Qed.
