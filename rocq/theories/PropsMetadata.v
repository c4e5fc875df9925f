(** * Metadata and discovery: the theorems

    Written by tools/gen_props.py: the statements are those of the lemmas proved in
    PfMetadata, PfDiscovery.
    Below each theorem, a concrete case that meets its hypotheses. *)

From Verif Require Import PfMetadata PfDiscovery.

(** ** C107 The metadata endpoint signs what it serves *)

Theorem C107_metadata_shape : forall sign xs i v, In (MdSent i v) (md_history sign xs) -> exists n, layers sign n v.
Proof. exact C107_metadata_shape_proof. Qed.
Print Assumptions C107_metadata_shape.
Example C107_metadata_shape_met : exists xs i v n,
  let sign := fun k s => String.append "signed:" s in
  In (MdSent i v) (md_history sign xs) /\ layers sign n v /\ v = "signed:signed:"%string.
Proof.
  exists [MdNew; MdNew; MdGo 0 (Some 0%N); MdGo 1 (Some 0%N); MdGo 1 (Some 0%N); MdGo 1 (Some 0%N); MdGo 0 (Some 0%N); MdGo 0 (Some 0%N); MdGo 0 None],
    0%nat, "signed:signed:"%string, 2%nat. cbn. split; [tauto|]. split; [|reflexivity].
  set (sign := fun (_ : N) (s : string) => ("signed:" ++ s)%string).
  exact (layers_sign sign 1 0%N "signed:" (layers_sign sign 0 0%N "" (layers_none sign))).
Qed.

Theorem C107_metadata_undisturbed_partial : forall sign xs i v,
  undisturbed (md_history sign xs) i -> In (MdSent i v) (md_history sign xs) -> exists k, v = sign k ""%string.
Proof. exact C107_metadata_undisturbed_partial_proof. Qed.
Print Assumptions C107_metadata_undisturbed_partial.
Example C107_metadata_undisturbed_partial_met : exists xs i v,
  let sign := fun k s => String.append "signed:" s in
  undisturbed (md_history sign xs) i /\ In (MdSent i v) (md_history sign xs) /\ v = "signed:"%string /\
  (exists j, In (MdSent j "") (md_history sign xs)).
Proof.
  (* requests 0 and 1 disturb each other; request 2 comes afterwards *)
  exists ([MdNew; MdNew] ++ repeat (MdGo 0 (Some 0%N)) 3 ++ [MdGo 1 (Some 0%N)] ++ repeat (MdGo 0 (Some 0%N)) 1 ++
          [MdNew] ++ repeat (MdGo 2 (Some 0%N)) 4)%list, 2%nat, "signed:"%string. cbv zeta. split; [|split; [|split]].
  - exists [MdCame 0; MdCame 1; MdStep 0; MdStep 0; MdStep 0; MdStep 1; MdSent 0 ""],
      [MdStep 2; MdStep 2; MdStep 2; MdSent 2 "signed:"], []. split; [reflexivity|].
    split; intros e H; cbn in H; repeat (destruct H as [<-|H]; [reflexivity|]); destruct H.
  - cbn; tauto.
  - reflexivity.
  - exists 0%nat. cbn; tauto.
Qed.

Theorem C107_missing_refuted : forall sign, exists xs i,
  (forall j, In (MdFailed j) (md_history sign xs) -> False) /\ In (MdSent i ""%string) (md_history sign xs).
Proof. exact C107_missing_refuted_proof. Qed.
Print Assumptions C107_missing_refuted.
Example C107_missing_refuted_met : exists sign : N -> string -> string, forall k s, sign k s <> ""%string.
Proof. exists (fun _ s => String.append "signed:" s). discriminate. Qed.

Theorem C107_nested_refuted : forall sign n, exists xs i v,
  (forall j, In (MdFailed j) (md_history sign xs) -> False) /\
  In (MdSent i v) (md_history sign xs) /\ v = Nat.iter (S n) (sign 0%N) ""%string.
Proof. exact C107_nested_refuted_proof. Qed.
Print Assumptions C107_nested_refuted.
Example C107_nested_refuted_met : exists sign : N -> string -> string, Nat.iter 3 (sign 0%N) ""%string = "signed:signed:signed:"%string.
Proof. exists (fun _ s => String.append "signed:" s). reflexivity. Qed.

(** ** C108 The SDK client finds the server it was made for *)

Theorem C108_discovery : forall meta keys issuer signed k ks,
  meta (issuer ++ "/.well-known/oauth-authorization-server")%string = MetaDoc (announced issuer signed) ->
  pk_answer (keys (issuer ++ "/keys")%string) = JwksDoc (Some (k :: ks)) 0 ->
  exists c token introspect, new_client meta keys issuer = Done (Some c) /\
    credentials_url c = (issuer ++ token)%string /\ mux token = Some (SEndpoint EToken) /\
    introspection_url c = (issuer ++ introspect)%string /\ mux introspect = Some (SEndpoint EIntrospect) /\
    assertion_audience c = sm_issuer (announced issuer signed) /\ cs_jwks (sdk_keys c) = Some (k :: ks) /\
    mux "/.well-known/oauth-authorization-server" = Some SMetadata /\ mux "/keys" = Some SKeys.
Proof. exact C108_discovery_proof. Qed.
Print Assumptions C108_discovery.
Example C108_discovery_met : exists meta keys issuer signed k,
  meta (issuer ++ "/.well-known/oauth-authorization-server")%string = MetaDoc (announced issuer signed) /\
  pk_answer (keys (issuer ++ "/keys")%string) = JwksDoc (Some [k]) 0 /\ issuer = "https://as.example"%string /\
  (* other URLs bring nothing *)
  meta ""%string = MetaFails.
Proof.
  exists (fun u => if String.eqb u "https://as.example/.well-known/oauth-authorization-server" then MetaDoc (announced "https://as.example" "s") else MetaFails),
    (fun u => mkKeysCall 0 (if String.eqb u "https://as.example/keys" then JwksDoc (Some [mkJwk "k" "sig" "m"]) 0 else JwksFails) 0),
    "https://as.example"%string, "s"%string, (mkJwk "k" "sig" "m"). repeat split.
Qed.

Theorem C108_usable : forall meta keys issuer c,
  new_client meta keys issuer = Done (Some c) ->
  sdk_issuer c = issuer /\
  meta (issuer ++ "/.well-known/oauth-authorization-server")%string = MetaDoc (sdk_metadata c) /\
  exists k ks exp, pk_answer (keys (sm_jwks (sdk_metadata c))) = JwksDoc (Some (k :: ks)) exp /\
    (exp = 0 \/ pk_now2 (keys (sm_jwks (sdk_metadata c))) <= exp)%N /\ cs_jwks (sdk_keys c) = Some (k :: ks).
Proof. exact C108_usable_proof. Qed.
Print Assumptions C108_usable.
Example C108_usable_met : exists meta keys issuer c,
  new_client meta keys issuer = Done (Some c) /\ cs_expiration (sdk_keys c) = 50%N.
Proof.
  exists (fun _ => MetaDoc (announced "https://as.example" "s")), (fun _ => mkKeysCall 0 (JwksDoc (Some [mkJwk "k" "sig" "m"]) 50) 0),
    "https://as.example"%string. eexists. split; reflexivity.
Qed.

Theorem C108_issuer_refuted : forall meta keys issuer d k ks,
  meta (issuer ++ "/.well-known/oauth-authorization-server")%string = MetaDoc d -> sm_issuer d <> issuer ->
  pk_answer (keys (sm_jwks d)) = JwksDoc (Some (k :: ks)) 0 ->
  exists c, new_client meta keys issuer = Done (Some c) /\ sm_issuer (sdk_metadata c) <> sdk_issuer c /\
    credentials_url c = sm_token d /\ introspection_url c = sm_introspect d.
Proof. exact C108_issuer_refuted_proof. Qed.
Print Assumptions C108_issuer_refuted.
Example C108_issuer_refuted_met : exists meta keys issuer d k,
  meta (issuer ++ "/.well-known/oauth-authorization-server")%string = MetaDoc d /\ sm_issuer d <> issuer /\
  pk_answer (keys (sm_jwks d)) = JwksDoc (Some [k]) 0 /\ sm_token d = "https://as.example/token"%string /\ issuer = "https://evil.example"%string.
Proof.
  exists (fun _ => MetaDoc (announced "https://as.example" "s")), (fun _ => mkKeysCall 0 (JwksDoc (Some [mkJwk "k" "sig" "m"]) 0) 0),
    "https://evil.example"%string. do 2 eexists. split; [reflexivity|]. split; [discriminate|]. repeat split.
Qed.

Theorem C108_null_refuted : forall meta keys issuer,
  meta (issuer ++ "/.well-known/oauth-authorization-server")%string = MetaNull -> new_client meta keys issuer = Crashed.
Proof. exact C108_null_refuted_proof. Qed.
Print Assumptions C108_null_refuted.
Example C108_null_refuted_met : exists meta : string -> metadata_answer, exists issuer,
  meta (issuer ++ "/.well-known/oauth-authorization-server")%string = MetaNull.
Proof. exists (fun _ => MetaNull), "https://as.example"%string. reflexivity. Qed.

Theorem C108_crash_exactly_partial : forall meta keys issuer,
  new_client meta keys issuer = Crashed <->
  meta (issuer ++ "/.well-known/oauth-authorization-server")%string = MetaNull \/
  exists d exp, meta (issuer ++ "/.well-known/oauth-authorization-server")%string = MetaDoc d /\
    pk_answer (keys (sm_jwks d)) = JwksDoc None exp.
Proof. exact C108_crash_exactly_partial_proof. Qed.
Print Assumptions C108_crash_exactly_partial.
Example C108_crash_exactly_partial_met : exists meta keys issuer d,
  meta (issuer ++ "/.well-known/oauth-authorization-server")%string = MetaDoc d /\
  pk_answer (keys (sm_jwks d)) = JwksDoc None 0 /\ new_client meta keys "https://other.example"%string = Done None.
Proof.
  exists (fun u => if String.eqb u "https://as.example/.well-known/oauth-authorization-server" then MetaDoc (announced "https://as.example" "s") else MetaFails),
    (fun _ => mkKeysCall 0 (JwksDoc None 0) 0), "https://as.example"%string. eexists. split; [reflexivity|]. split; reflexivity.
Qed.

Theorem C108_fails_exactly : forall meta keys issuer,
  new_client meta keys issuer = Done None <->
  meta (issuer ++ "/.well-known/oauth-authorization-server")%string = MetaFails \/
  exists d, meta (issuer ++ "/.well-known/oauth-authorization-server")%string = MetaDoc d /\
    let a := pk_answer (keys (sm_jwks d)) in
    a = JwksFails \/ (exists exp, a = JwksDoc (Some []) exp) \/
    exists ks exp, a = JwksDoc (Some ks) exp /\ (0 < exp < pk_now2 (keys (sm_jwks d)))%N.
Proof. exact C108_fails_exactly_proof. Qed.
Print Assumptions C108_fails_exactly.
Example C108_fails_exactly_met : exists meta keys issuer,
  new_client meta keys issuer = Done None /\ pk_answer (keys "https://as.example/keys"%string) = JwksDoc (Some [mkJwk "k" "sig" "m"]) 50 /\
  (exists c, new_client meta (fun u => mkKeysCall 0 (pk_answer (keys u)) 50) issuer = Done (Some c)).
Proof.
  exists (fun _ => MetaDoc (announced "https://as.example" "s")), (fun _ => mkKeysCall 0 (JwksDoc (Some [mkJwk "k" "sig" "m"]) 50) 51),
    "https://as.example"%string. split; [reflexivity|]. split; [reflexivity|]. eexists. reflexivity.
Qed.
