(** * The SDK: the theorems

    Written by tools/gen_props.py: the statements are those of the lemmas proved in
    PfBase62, PfVerifiable, PfSdk.
    Below each theorem, a concrete case that meets its hypotheses. *)

From Verif Require Import MeetSdk.
Local Open Scope N_scope.

(** ** C30 Generated request URIs are accepted *)

Theorem C30_generated_uri_refused_refuted : forall draw, draws_from_charset draw ->
  validate_request_uri (generate_request_uri draw) = false.
Proof. exact C30_generated_uri_refused_refuted_proof. Qed.
Print Assumptions C30_generated_uri_refused_refuted.
Example C30_generated_uri_refused_refuted_met : exists draw, draws_from_charset draw /\ generate_request_uri draw = "ABCDEFGHIJKLMNOPQRSTUVWXYZabcdef"%string.
Proof. exists demo_draw. split; [exact demo_draws|vm_compute; reflexivity]. Qed.

Theorem C30_accepted_uris_partial : forall s,
  validate_request_uri s = true <->
  exists p x q, trim_space s = (p ++ "urn:solid:" ++ x ++ q)%string /\
    String.length x = 32%nat /\ every_char is_alnum x.
Proof. exact C30_accepted_uris_partial_proof. Qed.
Print Assumptions C30_accepted_uris_partial.
Example C30_accepted_uris_partial_met :
  validate_request_uri "urn:solid:ABCDEFGHIJKLMNOPQRSTUVWXYZabcdef" = true /\
  validate_request_uri "junk urn:solid:ABCDEFGHIJKLMNOPQRSTUVWXYZabcdef-more" = true /\
  validate_request_uri "urn:solid:ABCDEFGHIJKLMNOPQRSTUVWXYZabcde" = false.
Proof. repeat split; vm_compute; reflexivity. Qed.

(** ** C40 String array laws *)

Theorem C40_contains : forall fold s item,
  contains fold s item = true <-> exists v, In v s /\ fold_eq fold item v.
Proof. exact C40_contains_proof. Qed.
Print Assumptions C40_contains.
Example C40_contains_met : contains fold_ascii ["openid"; "Email"]%string "EMAIL" = true /\ contains fold_ascii ["openid"; "Email"]%string "mail" = false.
Proof. split; vm_compute; reflexivity. Qed.

Theorem C40_add : forall fold s item,
  ((exists v, In v s /\ fold_eq fold item v) -> add_if_not_contains fold s item = s) /\
  (~ (exists v, In v s /\ fold_eq fold item v) -> add_if_not_contains fold s item = (s ++ [item])%list).
Proof. exact C40_add_proof. Qed.
Print Assumptions C40_add.
Example C40_add_met : add_if_not_contains fold_ascii ["openid"]%string "OpenID" = ["openid"]%string /\
  add_if_not_contains fold_ascii ["openid"]%string "email" = ["openid"; "email"]%string.
Proof. split; vm_compute; reflexivity. Qed.

Theorem C40_remove : forall fold s item,
  (~ (exists v, In v s /\ fold_eq fold item v) /\ remove_first fold s item = s) \/
  exists before v after, s = (before ++ v :: after)%list /\ fold_eq fold item v /\
    (forall u, In u before -> ~ fold_eq fold item u) /\
    remove_first fold s item = (before ++ after)%list.
Proof. exact C40_remove_proof. Qed.
Print Assumptions C40_remove.
Example C40_remove_met : remove_first fold_ascii ["a"; "b"; "B"; "c"]%string "B" = ["a"; "B"; "c"]%string /\
  remove_first fold_ascii ["a"]%string "b" = ["a"]%string.
Proof. split; vm_compute; reflexivity. Qed.

Theorem C40_has_one_of : forall fold s items,
  has_one_of fold s items = true <-> exists i v, In i items /\ In v s /\ fold_eq fold i v.
Proof. exact C40_has_one_of_proof. Qed.
Print Assumptions C40_has_one_of.
Example C40_has_one_of_met : has_one_of fold_ascii ["a"; "b"]%string ["x"; "A"]%string = true /\ has_one_of fold_ascii ["a"]%string [] = false.
Proof. split; vm_compute; reflexivity. Qed.

Theorem C40_has_all : forall fold s items,
  has_all fold s items = true <->
  items <> [] /\ forall i, In i items -> exists v, In v s /\ fold_eq fold i v.
Proof. exact C40_has_all_proof. Qed.
Print Assumptions C40_has_all.
Example C40_has_all_met : has_all fold_ascii ["a"; "b"]%string ["B"; "A"]%string = true /\ has_all fold_ascii ["a"; "b"]%string ["a"; "c"]%string = false /\
  has_all fold_ascii ["a"]%string [] = false.
Proof. repeat split; vm_compute; reflexivity. Qed.

(** ** C41 Padded base62 round trip *)

Theorem C41_round_trip : forall s len, parse_padded_base62 (to_padded_base62 s len) (String.length s) = Done (Some s).
Proof. exact C41_round_trip_proof. Qed.
Print Assumptions C41_round_trip.
Example C41_round_trip_met : parse_padded_base62 (to_padded_base62 uuid1 22) 16 = Done (Some uuid1) /\ to_padded_base62 "" 3 = "000"%string.
Proof. split; vm_compute; reflexivity. Qed.

Theorem C41_uuid_width : forall uuid, String.length uuid = 16%nat -> String.length (to_padded_base62 uuid 22) = 22%nat.
Proof. exact C41_uuid_width_proof. Qed.
Print Assumptions C41_uuid_width.
Example C41_uuid_width_met : exists uuid,
  String.length uuid = 16%nat.
Proof.
  exists (uuid1).
  meet.
Qed.

Theorem C41_mac_width_partial : forall sig, String.length sig = 44%nat ->
  (* one more than the declared 59 *)
  (59 <= String.length (to_padded_base62 sig 59) <= 60)%nat.
Proof. exact C41_mac_width_partial_proof. Qed.
Print Assumptions C41_mac_width_partial.
Example C41_mac_width_partial_met : exists sig,
  String.length sig = 44%nat.
Proof.
  exists (demo_hash 44 random96).
  meet.
Qed.

Theorem C41_mac_width_refuted : exists sig, String.length sig = 44%nat /\ String.length (to_padded_base62 sig 59) = 60%nat.
Proof. exact C41_mac_width_refuted_proof. Qed.
Print Assumptions C41_mac_width_refuted.
(* The theorem is itself a concrete case. *)

(** ** C42 Verifiable token round trip *)

Theorem C42_round_trip : forall C secret value uuid nonce s,
  String.length uuid = 16%nat -> String.length nonce = 12%nat -> (forall k m, String.length (cr_hmac C k m) = 32%nat) ->
  uuid_generate C secret value (Some uuid) (Some nonce) = Some s ->
  uuid_extract C secret s = Done (Some uuid) /\ uuid_verify C secret s = Done true.
Proof. exact C42_round_trip_proof. Qed.
Print Assumptions C42_round_trip.
Example C42_round_trip_met : exists C secret value uuid nonce s,
  String.length uuid = 16%nat /\ String.length nonce = 12%nat /\ (forall k m, String.length (cr_hmac C k m) = 32%nat) /\
  uuid_generate C secret value (Some uuid) (Some nonce) = Some s /\ value <> ""%string.
Proof.
  exists demo_crypto, "secret"%string, "user"%string, uuid1, nonce1, token1.
  repeat (split; [first [reflexivity | intros k m; apply demo_hash_len | vm_compute; reflexivity]|]). discriminate.
Qed.

Theorem C42_generation : forall C secret value uuid nonce,
  (exists s, uuid_generate C secret value (Some uuid) (Some nonce) = Some s) <->
  every_char (fun a => 97 <= byte a <= 122 \/ 48 <= byte a <= 57 \/ byte a = 45) (trim_space (cr_lower C value)).
Proof. exact C42_generation_proof. Qed.
Print Assumptions C42_generation.
Example C42_generation_met :
  (exists s, uuid_generate demo_crypto "secret" "my-app" (Some uuid1) (Some nonce1) = Some s) /\
  uuid_generate demo_crypto "secret" "my_app" (Some uuid1) (Some nonce1) = None.
Proof. split; [eexists|]; vm_compute; reflexivity. Qed.

(** ** C43 Verifiable tokens cannot be forged or relabelled *)

Theorem C43_accepted_is_authentic : forall C secret s uuid,
  uuid_extract C secret s = Done (Some uuid) ->
  exists prefix u m nonce mac,
    spelled s prefix u m /\ String.length uuid = 16%nat /\ denotes u uuid /\
    String.length nonce = 12%nat /\ String.length mac = 32%nat /\ denotes m (nonce ++ mac) /\
    mac = cr_hmac C (cr_hkdf C secret nonce "solid-uuid-wrapper-mac-v1")
            ("solid-uuid-protected-token-v1" ++ prefix ++ uuid)%string.
Proof. exact C43_accepted_is_authentic_proof. Qed.
Print Assumptions C43_accepted_is_authentic.
Example C43_accepted_is_authentic_met : exists C secret s uuid,
  uuid_extract C secret s = Done (Some uuid).
Proof.
  exists (demo_crypto); exists ("secret"%string); exists (token1); exists (uuid1).
  meet.
Qed.

Theorem C43_relabelled_is_rejected : forall C secret value uuid nonce s prefix body other uuid',
  String.length uuid = 16%nat -> String.length nonce = 12%nat -> (forall k m, String.length (cr_hmac C k m) = 32%nat) ->
  uuid_generate C secret value (Some uuid) (Some nonce) = Some s ->
  (* [s] with its prefix (with separator) replaced by [other] *)
  s = (prefix ++ body)%string ->
  prefix = (if is_empty (trim_space (cr_lower C value)) then ""%string else (trim_space (cr_lower C value) ++ "_")%string) ->
  uuid_extract C secret (other ++ body) = Done (Some uuid') ->
  (* is accepted only for the same UUID, and only if the codes of both prefixes collide *)
  uuid' = uuid /\
  let key := cr_hkdf C secret nonce "solid-uuid-wrapper-mac-v1" in
  cr_hmac C key ("solid-uuid-protected-token-v1" ++ prefix ++ uuid)%string =
  cr_hmac C key ("solid-uuid-protected-token-v1" ++ other ++ uuid)%string.
Proof. exact C43_relabelled_is_rejected_proof. Qed.
Print Assumptions C43_relabelled_is_rejected.
Example C43_relabelled_is_rejected_met : exists C secret value uuid nonce s prefix body other uuid',
  String.length uuid = 16%nat /\ String.length nonce = 12%nat /\ (forall k m, String.length (cr_hmac C k m) = 32%nat) /\
  uuid_generate C secret value (Some uuid) (Some nonce) = Some s /\ s = (prefix ++ body)%string /\
  prefix = (if is_empty (trim_space (cr_lower C value)) then ""%string else (trim_space (cr_lower C value) ++ "_")%string) /\
  uuid_extract C secret (other ++ body) = Done (Some uuid').
Proof.
  exists demo_crypto, "secret"%string, "user"%string, uuid1, nonce1, token1, "user_"%string, (substring 5 200 token1), "user_"%string, uuid1.
  repeat (split; [first [intros k m; apply demo_hash_len | vm_compute; reflexivity]|]). vm_compute; reflexivity.
Qed.
(* Another label is refused. *)
Example C43_relabelled_is_rejected_met2 : uuid_extract demo_crypto "secret" ("admin_" ++ substring 5 200 token1) = Done None.
Proof. vm_compute; reflexivity. Qed.

(** ** C44 Verifying a token never crashes *)

Theorem C44_crash_refuted : forall C secret, exists s, uuid_extract C secret s = Crashed.
Proof. exact C44_crash_refuted_proof. Qed.
Print Assumptions C44_crash_refuted.
Example C44_crash_refuted_met : uuid_extract demo_crypto "secret" "ZZZZZZZZZZZZZZZZZZZZZZ_00000000000000000000000000000000000000000000000000000000000" = Crashed.
Proof. vm_compute; reflexivity. Qed.

Theorem C44_crash_exactly_partial : forall C secret s,
  uuid_extract C secret s = Crashed <->
  (* well spelled, but a number too large for its 16 or 44 bytes *)
  exists prefix u m nu nm, spelled s prefix u m /\ num62 0 u = Some nu /\ num62 0 m = Some nm /\
    (256 ^ 16 <= nu \/ 256 ^ 44 <= nm).
Proof. exact C44_crash_exactly_partial_proof. Qed.
Print Assumptions C44_crash_exactly_partial.
Example C44_crash_exactly_partial_met :
  uuid_extract demo_crypto "secret" "a_ZZZZZZZZZZZZZZZZZZZZZZ_00000000000000000000000000000000000000000000000000000000000" = Crashed /\
  uuid_extract demo_crypto "secret" "a_0000000000000000000000_00000000000000000000000000000000000000000000000000000000000" = Done None.
Proof. split; vm_compute; reflexivity. Qed.

(** ** C45 A verifiable token has one spelling *)

Theorem C45_leading_zero_refuted : forall C secret s prefix u m uuid,
  spelled s prefix u m -> String.length m = 59%nat -> uuid_extract C secret s = Done (Some uuid) ->
  uuid_extract C secret (prefix ++ u ++ "_" ++ "0" ++ m) = Done (Some uuid).
Proof. exact C45_leading_zero_refuted_proof. Qed.
Print Assumptions C45_leading_zero_refuted.
Example C45_leading_zero_refuted_met : exists C secret s prefix u m uuid,
  spelled s prefix u m /\ String.length m = 59%nat /\ uuid_extract C secret s = Done (Some uuid).
Proof.
  exists demo_crypto, "secret"%string, token1, "user_"%string, (substring 5 22 token1), (substring 28 100 token1), uuid1.
  split; [exact token1_spelled|split; vm_compute; reflexivity].
Qed.

Theorem C45_one_spelling_partial : forall s prefix u m s' u' m' uuid sig,
  (* two spellings of the same token with the same prefix ... *)
  spelled s prefix u m -> denotes u uuid -> denotes m sig ->
  spelled s' prefix u' m' -> denotes u' uuid -> denotes m' sig ->
  (* ... and of the same length are the same *)
  String.length s = String.length s' -> s = s'.
Proof. exact C45_one_spelling_partial_proof. Qed.
Print Assumptions C45_one_spelling_partial.
Example C45_one_spelling_partial_met : exists s prefix u m s' u' m' uuid sig,
  spelled s prefix u m /\ denotes u uuid /\ denotes m sig /\
  spelled s' prefix u' m' /\ denotes u' uuid /\ denotes m' sig /\ String.length s = String.length s'.
Proof.
  exists token1, "user_"%string, (substring 5 22 token1), (substring 28 100 token1).
  exists token1, (substring 5 22 token1), (substring 28 100 token1), uuid1, (be_bytes 44 (match num62 0 (substring 28 100 token1) with Some n => n | None => 0 end) "").
  repeat (split; [first [exact token1_spelled | vm_compute; reflexivity]|]). reflexivity.
Qed.

(** ** C46 Generated PKCE pairs work *)

Theorem C46_generated_pair : forall sha random verifier challenge,
  String.length random = 96%nat -> (forall s, String.length (sha s) = 32%nat) ->
  code_verifier sha (Some random) = Some (verifier, challenge) ->
  String.length verifier = 128%nat /\ every_char is_b64url verifier /\
  String.length challenge = 43%nat /\ every_char is_b64url challenge /\
  b64url (sha verifier) = challenge /\ b64url_decode verifier = Some random.
Proof. exact C46_generated_pair_proof. Qed.
Print Assumptions C46_generated_pair.
Example C46_generated_pair_met : exists sha random verifier challenge,
  String.length random = 96%nat /\ (forall s, String.length (sha s) = 32%nat) /\
  code_verifier sha (Some random) = Some (verifier, challenge).
Proof.
  exists (demo_hash 32), random96. do 2 eexists. split; [vm_compute; reflexivity|].
  split; [intros; apply demo_hash_len|reflexivity].
Qed.

Theorem C46_validate_refuses_generated_refuted : forall sha random verifier challenge,
  String.length random = 96%nat -> (forall s, String.length (sha s) = 32%nat) ->
  code_verifier sha (Some random) = Some (verifier, challenge) ->
  pkce_validate challenge verifier = Some false.
Proof. exact C46_validate_refuses_generated_refuted_proof. Qed.
Print Assumptions C46_validate_refuses_generated_refuted.
Example C46_validate_refuses_generated_refuted_met : exists sha random verifier challenge,
  String.length random = 96%nat /\ (forall s, String.length (sha s) = 32%nat) /\
  code_verifier sha (Some random) = Some (verifier, challenge).
Proof.
  exists (demo_hash 32), random96. do 2 eexists. split; [vm_compute; reflexivity|].
  split; [intros; apply demo_hash_len|reflexivity].
Qed.

Theorem C46_validate_is_equality_partial : forall challenge verifier,
  pkce_validate challenge verifier = Some true <->
  challenge <> ""%string /\ verifier <> ""%string /\
  exists raw, b64url_decode challenge = Some raw /\ b64url_decode verifier = Some raw.
Proof. exact C46_validate_is_equality_partial_proof. Qed.
Print Assumptions C46_validate_is_equality_partial.
Example C46_validate_is_equality_partial_met :
  pkce_validate "aGVsbG8" "aGVsbG8" = Some true /\ pkce_validate "aGVsbG8" "aGVsbG9" = Some true /\
  pkce_validate "aGVsbG8" "aGVsbG4" = Some false /\ pkce_validate "aGVsbG8" "aGVsb" = None /\ pkce_validate "aGVs" "aGVt" = Some false.
Proof. repeat split; vm_compute; reflexivity. Qed.

(** ** C47 base64url round trip *)

Theorem C47_round_trip : forall s, b64url_decode (b64url s) = Some s.
Proof. exact C47_round_trip_proof. Qed.
Print Assumptions C47_round_trip.
Example C47_round_trip_met : b64url "hello" = "aGVsbG8"%string /\ b64url_decode "aGVsbG8" = Some "hello"%string.
Proof. split; vm_compute; reflexivity. Qed.

Theorem C47_length : forall s,
  (3 * String.length (b64url s) >= 4 * String.length s)%nat /\
  (3 * String.length (b64url s) < 4 * String.length s + 3)%nat /\
  every_char is_b64url (b64url s).
Proof. exact C47_length_proof. Qed.
Print Assumptions C47_length.
Example C47_length_met : b64url "fooba?" = "Zm9vYmE_"%string.
Proof. vm_compute; reflexivity. Qed.

(** ** C50 Pairwise subjects *)

Theorem C50_rejections : forall blake salt sector subject,
  (only_space subject -> pairwise_encode blake salt sector subject = None) /\
  ((String.length salt < 16)%nat \/ (64 < String.length salt)%nat -> pairwise_encode blake salt sector subject = None) /\
  (~ only_space subject -> (16 <= String.length salt <= 64)%nat -> pairwise_encode blake salt sector subject <> None).
Proof. exact C50_rejections_proof. Qed.
Print Assumptions C50_rejections.
Example C50_rejections_met : only_space "  " /\ ~ only_space " alice" /\ (16 <= String.length "0123456789abcdef" <= 64)%nat.
Proof.
  split; [repeat constructor|]. split; [|cbn; lia]. intros H. inversion H as [|? ? A B]; subst. inversion B; discriminate.
Qed.

Theorem C50_distinct_partial : forall blake salt sector sector' subject subject' v,
  (forall x y, blake salt x = blake salt y -> x = y) ->
  pairwise_encode blake salt sector subject = Some v ->
  pairwise_encode blake salt sector' subject' = Some v ->
  (sector ++ trim_space subject = sector' ++ trim_space subject')%string /\
  (String.length sector = String.length sector' ->
   sector = sector' /\ trim_space subject = trim_space subject').
Proof. exact C50_distinct_partial_proof. Qed.
Print Assumptions C50_distinct_partial.
Example C50_distinct_partial_met : exists blake salt sector sector' subject subject' v,
  (forall x y, blake salt x = blake salt y -> x = y) /\
  pairwise_encode blake salt sector subject = Some v /\ pairwise_encode blake salt sector' subject' = Some v.
Proof.
  exists (fun _ m => m), "0123456789abcdef"%string, "example.com"%string, "example.com"%string, "alice"%string, " alice"%string.
  eexists. split; [auto|]. split; vm_compute; reflexivity.
Qed.

Theorem C50_distinct_refuted : forall blake salt, (16 <= String.length salt <= 64)%nat ->
  exists sector sector' subject subject' v,
    sector <> sector' /\ subject <> subject' /\
    pairwise_encode blake salt sector subject = Some v /\
    pairwise_encode blake salt sector' subject' = Some v.
Proof. exact C50_distinct_refuted_proof. Qed.
Print Assumptions C50_distinct_refuted.
Example C50_distinct_refuted_met : (16 <= String.length "0123456789abcdef" <= 64)%nat.
Proof. cbn; lia. Qed.

(** ** C51 Generated codes have the advertised format *)

Theorem C51_codes : forall draw, draws_from_charset draw ->
  (String.length (generate_authorization_code draw) = 32%nat /\
   every_char is_alnum (generate_authorization_code draw) /\
   validate_code (generate_authorization_code draw) = true) /\
  (String.length (generate_device_code draw) = 32%nat /\
   every_char is_alnum (generate_device_code draw) /\
   validate_code (generate_device_code draw) = true) /\
  (String.length (generate_client_id draw) = 16%nat /\ every_char is_alnum (generate_client_id draw)).
Proof. exact C51_codes_proof. Qed.
Print Assumptions C51_codes.
Example C51_codes_met : exists draw, draws_from_charset draw.
Proof. exists demo_draw. exact demo_draws. Qed.

Theorem C51_code_validation : forall s, every_char (fun a => 33 <= byte a <= 126) s ->
  (validate_code s = true <-> String.length s = 32%nat).
Proof. exact C51_code_validation_proof. Qed.
Print Assumptions C51_code_validation.
Example C51_code_validation_met : every_char (fun a => 33 <= byte a <= 126) "abcdefghijklmnopqrstuvwxyz012345" /\
  validate_code "abcdefghijklmnopqrstuvwxyz012345" = true /\ validate_code "abcdefghijklmnopqrstuvwxyz01234" = false.
Proof. split; [|split; vm_compute; reflexivity]. vm_compute.
  repeat (split; [split; discriminate|]). exact I. Qed.

Theorem C51_user_codes : forall draw, draws_from_charset draw ->
  (exists x y, generate_alpha_user_code draw = (x ++ "-" ++ y)%string /\
     String.length x = 4%nat /\ String.length y = 4%nat /\
     every_char (fun a => has_char a "BCDFGHJKLMNPQRSTVWXZ") (x ++ y)) /\
  (exists x y z, generate_num_user_code draw = (x ++ "-" ++ y ++ "-" ++ z)%string /\
     String.length x = 3%nat /\ String.length y = 3%nat /\ String.length z = 3%nat /\
     every_char (fun a => 48 <= byte a <= 57) (x ++ y ++ z)).
Proof. exact C51_user_codes_proof. Qed.
Print Assumptions C51_user_codes.
Example C51_user_codes_met : exists draw, draws_from_charset draw /\ generate_num_user_code draw = "012-345-678"%string.
Proof. exists demo_draw. split; [exact demo_draws|vm_compute; reflexivity]. Qed.

(** ** C59 Error objects *)

Theorem C59_built_errors_partial : forall c before after e,
  c <> TokenExpired ->
  nth_error (run_builder (new_builder c) (before ++ CallBuild :: after))
    (List.length (filter (fun x => match x with CallBuild => true | _ => false end) before)) = Some e ->
  bt_code e = registered_code c /\
  (bt_state e = None <-> last_state before "" = ""%string) /\
  (forall s, bt_state e = Some s -> s = last_state before "") /\
  bt_description e = last_description before (bt_description (build (new_builder c))) /\
  bt_uri e = None /\ bt_resource e = None.
Proof. exact C59_built_errors_partial_proof. Qed.
Print Assumptions C59_built_errors_partial.
Example C59_built_errors_partial_met : exists c before after e,
  c <> TokenExpired /\ before <> [] /\
  nth_error (run_builder (new_builder c) (before ++ CallBuild :: after))
    (List.length (filter (fun x => match x with CallBuild => true | _ => false end) before)) = Some e.
Proof.
  exists InvalidGrant, [CallState "s1"; CallBuild; CallState "s2"], [CallState ""; CallBuild]. eexists.
  split; [discriminate|]. split; [discriminate|]. vm_compute; reflexivity.
Qed.

Theorem C59_expired_device_code_refuted : forall e calls,
  In e (run_builder (new_builder TokenExpired) calls) -> bt_code e <> registered_code TokenExpired.
Proof. exact C59_expired_device_code_refuted_proof. Qed.
Print Assumptions C59_expired_device_code_refuted.
Example C59_expired_device_code_refuted_met : exists e calls, In e (run_builder (new_builder TokenExpired) calls).
Proof. eexists. exists [CallState "s1"; CallBuild]. left. reflexivity. Qed.

Theorem C59_codes_distinct : forall c c' calls calls' e e',
  In e (run_builder (new_builder c) calls) -> In e' (run_builder (new_builder c') calls') ->
  bt_code e = bt_code e' -> c = c'.
Proof. exact C59_codes_distinct_proof. Qed.
Print Assumptions C59_codes_distinct.
Example C59_codes_distinct_met : exists c c' calls calls' e e',
  In e (run_builder (new_builder c) calls) /\ In e' (run_builder (new_builder c') calls') /\ bt_code e = bt_code e' /\ e <> e'.
Proof.
  exists InvalidGrant, InvalidGrant, [CallBuild], [CallState "s"; CallBuild]. do 2 eexists.
  split; [left; reflexivity|]. split; [left; reflexivity|]. split; [reflexivity|discriminate].
Qed.
