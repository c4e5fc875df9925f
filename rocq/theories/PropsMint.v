(** * Token values and where they come from: the theorems

    Written by tools/gen_props.py: the statements are those of the lemmas proved in
    PfMint.
    Below each theorem, a concrete case that meets its hypotheses. *)

From Verif Require Import MeetMint.

(** ** C117 Token values are never used twice *)

Theorem C117_no_reuse : forall C sa sr source E w xs,
  let h := history E w xs in
  primitives_ok C -> package_generators C sa sr source h -> unique_uuids source (List.length h) ->
  unique_ids h -> slots_collision_free E h ->
  no_reuse E h.
Proof. exact C117_no_reuse_proof. Qed.
Print Assumptions C117_no_reuse.
Example C117_no_reuse_met : exists C sa sr source E w xs,
  let h := history E w xs in
  primitives_ok C /\ package_generators C sa sr source h /\ unique_uuids source (List.length h) /\
  unique_ids h /\ slots_collision_free E h /\
  List.length (filter (fun e => match e with EvCall _ (CTokCreate _ _) (AUnit (SOk _)) => true | _ => false end) h) = 4%nat.
Proof.
  exists toy, access_secret, refresh_secret, toy_source, demo_ext, w0, x_mint. split; [exact toy_ok|]. split; [exact mint_gens|].
  split; [apply toy_unique; apply Nat.leb_le; vm_compute; reflexivity|]. split; [exact mint_ids|]. split; [exact mint_collisions|vm_compute; reflexivity].
Qed.

Theorem C117_web_no_reuse : forall C sa sr source S w xs,
  let hh := http_history S w xs in
  primitives_ok C -> web_package_generators C sa sr source hh -> unique_uuids source (List.length hh) ->
  web_unique_ids hh -> web_slots_collision_free (sv_ext S) hh ->
  web_no_reuse (sv_ext S) hh.
Proof. exact C117_web_no_reuse_proof. Qed.
Print Assumptions C117_web_no_reuse.
Example C117_web_no_reuse_met : exists C sa sr source S w xs,
  let hh := http_history S w xs in
  primitives_ok C /\ web_package_generators C sa sr source hh /\ unique_uuids source (List.length hh) /\
  web_unique_ids hh /\ web_slots_collision_free (sv_ext S) hh /\
  List.length (filter (fun e => match e with HvCall _ (CTokCreate _ _) (AUnit (SOk _)) => true | _ => false end) hh) = 3%nat.
Proof.
  exists toy, access_secret, refresh_secret, toy_source, web_server, (web_world true), x_web_mint. split; [exact toy_ok|].
  split; [exact web_mint_gens|]. split; [apply toy_unique; apply Nat.leb_le; vm_compute; reflexivity|]. split; [exact web_mint_ids|].
  split; [exact web_mint_collisions|vm_compute; reflexivity].
Qed.

Theorem C117_kind : forall C secret t uuid v,
  primitives_ok C -> String.length uuid = 16 -> made C secret t uuid v ->
  (* the value says what kind of token it is, then which UUID; and the verifier with that key accepts it *)
  (t_type t = TtAccess -> exists m, v = ("sldat_" ++ to_padded_base62 uuid 22 ++ "_" ++ m)%string) /\
  (t_type t = TtRefresh -> exists m, v = ("sldrt_" ++ to_padded_base62 uuid 22 ++ "_" ++ m)%string) /\
  uuid_extract C secret v = Done (Some uuid).
Proof. exact C117_kind_proof. Qed.
Print Assumptions C117_kind.
Example C117_kind_met : exists C secret t uuid v,
  primitives_ok C /\ String.length uuid = 16%nat /\ made C secret t uuid v /\ t_type t = TtAccess.
Proof.
  exists toy, access_secret, (mkToken "" TtAccess "" None TsActive "" None), (toy_source 7), (A 7).
  split; [exact toy_ok|]. split; [reflexivity|]. split; [apply a_made; reflexivity|reflexivity].
Qed.

Theorem C117_different : forall C secret secret' t t' uuid uuid' v v',
  primitives_ok C -> String.length uuid = 16 -> String.length uuid' = 16 ->
  (t_type t = TtAccess \/ t_type t = TtRefresh) -> (t_type t' = TtAccess \/ t_type t' = TtRefresh) ->
  made C secret t uuid v -> made C secret' t' uuid' v' ->
  (* values of different kinds or from different UUIDs differ, whatever keys and nonces *)
  t_type t <> t_type t' \/ uuid <> uuid' -> v <> v'.
Proof. exact C117_different_proof. Qed.
Print Assumptions C117_different.
Example C117_different_met : exists C secret secret' t t' uuid uuid' v v',
  primitives_ok C /\ String.length uuid = 16%nat /\ String.length uuid' = 16%nat /\ t_type t = TtAccess /\ t_type t' = TtRefresh /\
  made C secret t uuid v /\ made C secret' t' uuid' v'.
Proof.
  exists toy, access_secret, refresh_secret, (mkToken "" TtAccess "" None TsActive "" None),
    (mkToken "" TtRefresh "" None TsActive "" None), (toy_source 7), (toy_source 7), (A 7), (R 7).
  split; [exact toy_ok|]. do 4 (split; [reflexivity|]). split; [apply a_made; reflexivity|apply r_made; reflexivity].
Qed.

Theorem C117_total : forall C generator t uuid nonce,
  primitives_ok C ->
  (* there is a value exactly if there are a generator, a token, a UUID and a nonce *)
  token_value C generator t uuid nonce <> None <->
  generator <> None /\ t <> None /\ uuid <> None /\ nonce <> None.
Proof. exact C117_total_proof. Qed.
Print Assumptions C117_total.
Example C117_total_met : exists C generator t uuid nonce, primitives_ok C /\
  token_value C generator t uuid nonce <> None.
Proof.
  exists toy, (Some access_secret), (Some (mkToken "" TtAccess "" None TsActive "" None)), (Some (toy_source 7)), (Some toy_nonce).
  split; [exact toy_ok|]. vm_compute. discriminate.
Qed.

Theorem C117_other_key : forall C secret secret' t uuid v uuid',
  primitives_ok C -> String.length uuid = 16 -> (t_type t = TtAccess \/ t_type t = TtRefresh) -> made C secret t uuid v ->
  uuid_extract C secret' v = Done (Some uuid') ->
  (* a verifier with another key accepts the value only for the same UUID and if both keys give
     the same code: for instance an access token shown to the verifier of refresh tokens *)
  uuid' = uuid /\ exists nonce, String.length nonce = 12 /\
  let code k := cr_hmac C (cr_hkdf C k nonce "solid-uuid-wrapper-mac-v1")
                  ("solid-uuid-protected-token-v1" ++ (kind_prefix (t_type t) ++ "_") ++ uuid)%string in
  code secret' = code secret.
Proof. exact C117_other_key_proof. Qed.
Print Assumptions C117_other_key.
Example C117_other_key_met : exists C secret secret' t uuid v uuid',
  primitives_ok C /\ String.length uuid = 16%nat /\ t_type t = TtAccess /\ made C secret t uuid v /\
  uuid_extract C secret' v = Done (Some uuid').
Proof.
  exists toy, access_secret, refresh_secret, (mkToken "" TtAccess "" None TsActive "" None), (toy_source 7), (A 7), (toy_source 7).
  split; [exact toy_ok|]. split; [reflexivity|]. split; [reflexivity|]. split; [apply a_made; reflexivity|vm_compute; reflexivity].
Qed.
