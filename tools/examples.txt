@@ C01_client_credentials_gate
w: demo_ext; w0; x_cc; 0%nat; ccreq webapp; _
@@ C04_pkce_and_redirect_gate
w: demo_ext; w0; x_code; 1%nat; redeem webapp "code-1"; _
@@ C05_tokens_as_authorized
w: demo_ext; w0; x_code; 1%nat; redeem webapp "code-1"; _
@@ C60_deleted_code_unusable
w: demo_ext; w0; x_again; firstn 8 (history demo_ext w0 x_again); 1%nat; iss; "code-1"%string; _; firstn 14 (skipn 9 (history demo_ext w0 x_again)); skipn 14 (skipn 9 (history demo_ext w0 x_again)); 3%nat; redeem webapp "code-1"; _
@@ C02_code_redeemed_once
w: demo_ext; w0; x_again; firstn 18 (history demo_ext w0 x_again); skipn 18 (history demo_ext w0 x_again); 1%nat; 3%nat; redeem webapp "code-1"; redeem webapp "code-1"; _; _; iss; "code-1"%string
@@ C03_code_redeemed_once_partial
w: demo_ext; w0; x_again; firstn 8 (history demo_ext w0 x_again); 1%nat; iss; "code-1"%string; _; skipn 9 (history demo_ext w0 x_again); 3%nat; redeem webapp "code-1"; _
  every.
@@ C60_no_token_before_deletion
w: demo_ext; w0; x_code; firstn 12 (history demo_ext w0 x_code); 1%nat; _; _; _; skipn 13 (history demo_ext w0 x_code); redeem webapp "code-1"; "code-1"%string; cb; verifier
@@ C06_code_bound_to_client_partial
w: demo_ext; w_apart; x_code; 1%nat; redeem webapp "code-1"; _
@@ C07_codes_expire
w: demo_ext; w0; x_code; 1%nat; redeem webapp "code-1"; _; iss; "code-1"%string
@@ C07_codes_retrievable
w: demo_ext; w0; x_code; firstn 3 (history demo_ext w0 x_code); 0%nat; iss; "code-1"%string; _; _; firstn 3 (skipn 4 (history demo_ext w0 x_code)); 1%nat; iss; "code-1"%string; _; skipn 4 (skipn 4 (history demo_ext w0 x_code))
--
w: demo_ext; w0; x_late; firstn 3 (history demo_ext w0 x_late); 0%nat; iss; "code-1"%string; _; _; firstn 4 (skipn 4 (history demo_ext w0 x_late)); 1%nat; iss; "code-1"%string; _; skipn 5 (skipn 4 (history demo_ext w0 x_late))
name: _late
@@ C07_pushed_requests_expire
w: demo_ext; w0; x_par; 1%nat; byuri; _; frontreq; uri1
@@ C07_pushed_requests_retrievable
w: demo_ext; w0; x_par; firstn 3 (history demo_ext w0 x_par); 0%nat; iss; uri1; _; _; firstn 2 (skipn 4 (history demo_ext w0 x_par)); 1%nat; iss; uri1; _; skipn 3 (skipn 4 (history demo_ext w0 x_par))
@@ C08_refresh_gate
w: demo_ext; w0; x_refresh; 2%nat; refreshreq webapp "rt-1"; _
@@ C09_refresh_rotation_partial
w: demo_ext; w0; x_rotate; firstn 33 (history demo_ext w0 x_rotate); skipn 33 (history demo_ext w0 x_rotate); 2%nat; 3%nat; refreshreq webapp "rt-1"; refreshreq webapp "rt-1"; _; iss; "rt-1"%string
@@ C18_failure_has_no_token
Example C18_failure_has_no_token_met : exists E w xs i req res j req' res',
  answered (history E w xs) i (RToken req) (PToken res) /\ tr_err res = false /\ tr_at res <> None /\
  answered (history E w xs) j (RToken req') (PToken res') /\ tr_err res' = true.
Proof.
  exists demo_ext, w0, x_rotate, 2%nat; eexists; eexists; exists 3%nat; do 2 eexists. meet.
Qed.
@@ C19_no_panic_partial
w: demo_ext; w0; x_exchange; 2%nat; RToken (Some (exchangereq webapp "at-1" None)); _
  every.
@@ C19_no_panic_in_memory_partial
w: demo_ext; w0; x_exchange; 2%nat; RToken (Some (exchangereq webapp "at-1" None)); _
@@ C19_public_error_partial
w: demo_ext; w0; x_rotate; 3%nat; RToken (Some (refreshreq webapp "rt-1")); _
  - discriminate.
  - intros req E1. injection E1 as <-. discriminate.
@@ C19_unreported_exactly_partial
w: demo_ext; w0; x_norevoke; 0%nat; RRevoke (Some (mkValReq iss (Some webapp) "nothing")); _
@@ C19_panics_exactly_partial
w: demo_ext; w0; x_crash; 2%nat; RToken (Some (exchangereq webapp "at-1" None)); _
@@ C10_revocation_permanent
Example C10_revocation_permanent_met : exists E w xs h1 h2 i req res j req2 k q ires,
  no_tokens w /\ no_reuse E (history E w xs) /\ history E w xs = (h1 ++ h2)%list /\
  answered h1 i (RRevoke (Some req)) (PRevoke res) /\ rr_err res = false /\
  In (EvStart j (RToken (Some req2))) h2 /\ presents_refresh req2 (vq_issuer req) (vq_token req) /\
  no_faults xs /\ In (EvStart k (RIntrospect (Some q))) h2 /\ vq_issuer q = vq_issuer req /\
  vq_token q = vq_token req /\ answered (history E w xs) k (RIntrospect (Some q)) (PIntrospect ires) /\
  ir_err ires = false.
Proof.
  exists demo_ext, w0, x_revoked, (firstn 23 (history demo_ext w0 x_revoked)), (skipn 23 (history demo_ext w0 x_revoked)), 2%nat.
  exists (mkValReq iss (Some webapp) "rt-1"). eexists. exists 3%nat, (refreshreq webapp "rt-1"), 4%nat. do 2 eexists. meet.
Qed.
@@ C11_revokes_what_is_presented_partial
w: demo_ext; w0; x_revoked; firstn 21 (history demo_ext w0 x_revoked); 2%nat; _; _; _; skipn 22 (history demo_ext w0 x_revoked); _
@@ C12_exchange_gate
w: demo_ext; w0; x_exchange; 2%nat; exchangereq webapp "at-1" None; _
@@ C13_exchange_scope_partial
w: demo_ext; w0; x_exchange; 2%nat; exchangereq webapp "at-1" None; _
@@ C14_device_needs_approval
w: demo_ext; w0s; x_device; 2%nat; pollreq webapp "device-1"; _
@@ C15_in_memory_never_refuted
Example C15_in_memory_never_refuted_met : exists E w xs k q res i req res',
  blank w /\ (forall t s, w_stamp w t s = s) /\
  answered (history E w xs) k (RDevValidate (Some q)) (PDevValidate res) /\
  answered (history E w xs) i (RToken (Some req)) (PToken res') /\
  tq_grant_type req = "urn:ietf:params:oauth:grant-type:device_code"%string.
Proof.
  exists demo_ext, w0, x_device, 1%nat; do 2 eexists; exists 2%nat; do 2 eexists. meet. reflexivity.
Qed.
@@ C15_approved_device_gets_tokens_partial
w: demo_ext; w0s; x_device; firstn 0 (history demo_ext w0s x_device); firstn 12 (skipn 0 (history demo_ext w0s x_device)); skipn 12 (skipn 0 (history demo_ext w0s x_device)); 0%nat; _; _; 1%nat; _; _; 2%nat; pollreq webapp "device-1"; webapp; "device-1"%string; _
  - eexists. split; reflexivity.
  - eexists. split; [right; right; right; left; reflexivity|reflexivity].
@@ C20_lifetimes
w: demo_ext; w0; x_code; tok_key demo_ext iss "at-1"; _
@@ C21_subjects_consented
w: demo_ext; w0; x_code; tok_key demo_ext iss "rt-1"; _; _
@@ C17_introspection
w: demo_ext; w0; x_intro; 2%nat; _; _
@@ C24_success_means_stored
w: demo_ext; w0; x_code; y_intro; 1%nat; redeem webapp "code-1"; _; _; 2%nat; mkValReq iss (Some webapp) "at-1"; _; webapp
  discriminate.
@@ C23_pointers_resolved
Example C23_pointers_resolved_met : exists E w os issuer value id, no_tokens w /\
  ts_get_by_value E (ts_run E ts_new os) issuer value <> None /\ ts_get (ts_run E ts_new os) id = None.
Proof. exists demo_ext, w0, demo_tops, iss, "at-1"%string, "id-2"%string. meet. Qed.
@@ C23_token_store_is_a_map
Example C23_token_store_is_a_map_met : top_no_reuse demo_ext demo_tops /\
  (exists t, ts_get_by_value demo_ext (ts_run demo_ext ts_new demo_tops) iss "at-1" = Some t /\ t_status t = TsRevoked) /\
  ts_get (ts_run demo_ext ts_new demo_tops) "id-2" = None.
Proof.
  split; [apply tops_apart; vm_compute; reflexivity|]. split; [eexists; split|]; vm_compute; reflexivity.
Qed.
@@ C25_authorize_valid_requests
w: demo_ext; w0; x_par; 1%nat; byuri; _
@@ C31_response_mode
w: demo_ext; w0; x_authz; 0%nat; _; _; _; _
@@ C26_redirect_registered_partial
w: demo_ext; w0; x_par; 1%nat; byuri; _
@@ C27_no_offline_without_consent_partial
w: demo_ext; w0; x_code; 1%nat; redeem webapp "code-1"; _
@@ C28_deleted_request_unusable
w: demo_ext; w0; x_par2; firstn 7 (history demo_ext w0 x_par2); 1%nat; iss; uri1; _; firstn 9 (skipn 8 (history demo_ext w0 x_par2)); skipn 9 (skipn 8 (history demo_ext w0 x_par2)); 3%nat; byuri; frontreq; _
@@ C28_request_uri_once
w: demo_ext; w0; x_par2; firstn 12 (history demo_ext w0 x_par2); skipn 12 (history demo_ext w0 x_par2); 1%nat; 3%nat; byuri; byuri; frontreq; frontreq; _; _; iss; uri1
@@ C29_register_own_client
w: demo_ext; w0; x_par; 0%nat; pushreq; _
@@ C29_pushed_request_as_pushed
w: demo_ext; w0; x_par; 1%nat; byuri; _; frontreq; uri1
@@ C22_tokens_isolated_partial
Example C22_tokens_isolated_partial_met : exists E w xs i req res j req' res' k q,
  collision_free E /\ issuers_apart (history E w xs) /\ no_tokens w /\
  token_ok (history E w xs) i req res /\ presents_refresh req (tq_issuer req) "rt-1" /\
  answered (history E w xs) j (RIntrospect (Some req')) (PIntrospect res') /\ vq_issuer req' <> tq_issuer req /\
  asked (history E w xs) k (RRevoke (Some q)).
Proof.
  exists demo_ext, w0, x_two_issuers, 2%nat, (refreshreq webapp "rt-1"). eexists. exists 3%nat. do 2 eexists. exists 4%nat. eexists. meet.
Qed.
@@ C22_codes_isolated_partial
Example C22_codes_isolated_partial_met : exists E w xs i req res code,
  collision_free E /\ issuers_apart (history E w xs) /\ blank w /\
  token_ok (history E w xs) i req res /\ presents_code req (tq_issuer req) code.
Proof.
  exists demo_ext, w0, x_two_issuers, 1%nat, (redeem webapp "code-1"). eexists. exists "code-1"%string. meet.
Qed.
@@ C32_private_key_jwt
w: demo_ext; w0; x_assert; 0%nat; _; _
@@ C34_attestation_partial
w: demo_ext; w0; x_attest_ok; 0%nat; _; _
@@ C35_dpop_sound
w: demo_ext; w0; x_dpop; 0%nat; _; _; _; _; _; _
@@ C38_dpop_binds_token
w: demo_ext; w0; x_dpop; 0%nat; _; _; _; "token-value"%string; _; _
@@ C36_dpop_once_partial
w: demo_ext; w0; x_dpop2; firstn 6 (history demo_ext w0 x_dpop2); skipn 6 (history demo_ext w0 x_dpop2); 0%nat; 1%nat; "proof"%string; _; _; _; _; _; _; _; _; _
@@ C37_dpop_once_partial
w: demo_ext; w0; x_dpop_race; 0%nat; 1%nat; "proof"%string; _; _; _; _; _; _; _; _; _; _; _; firstn 8 (history demo_ext w0 x_dpop_race); skipn 9 (history demo_ext w0 x_dpop_race); _
@@ C39_secure_compare
Example C39_secure_compare_met : secure_compare "abc" "abc" = true /\ secure_compare "abc" "abd" = false.
Proof. split; vm_compute; reflexivity. Qed.
@@ C41_round_trip
Example C41_round_trip_met : parse_padded_base62 (to_padded_base62 uuid1 22) 16 = Done (Some uuid1) /\ to_padded_base62 "" 3 = "000"%string.
Proof. split; vm_compute; reflexivity. Qed.
@@ C41_uuid_width
w: uuid1
@@ C41_mac_width_partial
w: demo_hash 44 random96
@@ C42_round_trip
Example C42_round_trip_met : exists C secret value uuid nonce s,
  String.length uuid = 16%nat /\ String.length nonce = 12%nat /\ (forall k m, String.length (cr_hmac C k m) = 32%nat) /\
  uuid_generate C secret value (Some uuid) (Some nonce) = Some s /\ value <> ""%string.
Proof.
  exists demo_crypto, "secret"%string, "user"%string, uuid1, nonce1, token1.
  repeat (split; [first [reflexivity | intros k m; apply demo_hash_len | vm_compute; reflexivity]|]). discriminate.
Qed.
@@ C42_generation
Example C42_generation_met :
  (exists s, uuid_generate demo_crypto "secret" "my-app" (Some uuid1) (Some nonce1) = Some s) /\
  uuid_generate demo_crypto "secret" "my_app" (Some uuid1) (Some nonce1) = None.
Proof. split; [eexists|]; vm_compute; reflexivity. Qed.
@@ C43_accepted_is_authentic
w: demo_crypto; "secret"%string; token1; uuid1
@@ C43_relabelled_is_rejected
Example C43_relabelled_is_rejected_met : exists C secret value uuid nonce s prefix body other uuid',
  String.length uuid = 16%nat /\ String.length nonce = 12%nat /\ (forall k m, String.length (cr_hmac C k m) = 32%nat) /\
  uuid_generate C secret value (Some uuid) (Some nonce) = Some s /\ s = (prefix ++ body)%string /\
  prefix = (if is_empty (trim_space (cr_lower C value)) then ""%string else (trim_space (cr_lower C value) ++ "_")%string) /\
  uuid_extract C secret (other ++ body) = Done (Some uuid').
Proof.
  exists demo_crypto, "secret"%string, "user"%string, uuid1, nonce1, token1, "user_"%string, (substring 5 200 token1), "user_"%string, uuid1.
  repeat (split; [first [intros k m; apply demo_hash_len | vm_compute; reflexivity]|]). vm_compute; reflexivity.
Qed.
--
(* Another label is refused. *)
Example C43_relabelled_is_rejected_met2 : uuid_extract demo_crypto "secret" ("admin_" ++ substring 5 200 token1) = Done None.
Proof. vm_compute; reflexivity. Qed.
@@ C44_crash_refuted
Example C44_crash_refuted_met : uuid_extract demo_crypto "secret" "ZZZZZZZZZZZZZZZZZZZZZZ_00000000000000000000000000000000000000000000000000000000000" = Crashed.
Proof. vm_compute; reflexivity. Qed.
@@ C44_crash_exactly_partial
Example C44_crash_exactly_partial_met :
  uuid_extract demo_crypto "secret" "a_ZZZZZZZZZZZZZZZZZZZZZZ_00000000000000000000000000000000000000000000000000000000000" = Crashed /\
  uuid_extract demo_crypto "secret" "a_0000000000000000000000_00000000000000000000000000000000000000000000000000000000000" = Done None.
Proof. split; vm_compute; reflexivity. Qed.
@@ C45_leading_zero_refuted
Example C45_leading_zero_refuted_met : exists C secret s prefix u m uuid,
  spelled s prefix u m /\ String.length m = 59%nat /\ uuid_extract C secret s = Done (Some uuid).
Proof.
  exists demo_crypto, "secret"%string, token1, "user_"%string, (substring 5 22 token1), (substring 28 100 token1), uuid1.
  split; [exact token1_spelled|split; vm_compute; reflexivity].
Qed.
@@ C45_one_spelling_partial
Example C45_one_spelling_partial_met : exists s prefix u m s' u' m' uuid sig,
  spelled s prefix u m /\ denotes u uuid /\ denotes m sig /\
  spelled s' prefix u' m' /\ denotes u' uuid /\ denotes m' sig /\ String.length s = String.length s'.
Proof.
  exists token1, "user_"%string, (substring 5 22 token1), (substring 28 100 token1).
  exists token1, (substring 5 22 token1), (substring 28 100 token1), uuid1, (be_bytes 44 (match num62 0 (substring 28 100 token1) with Some n => n | None => 0 end) "").
  repeat (split; [first [exact token1_spelled | vm_compute; reflexivity]|]). reflexivity.
Qed.
@@ C47_round_trip
Example C47_round_trip_met : b64url "hello" = "aGVsbG8"%string /\ b64url_decode "aGVsbG8" = Some "hello"%string.
Proof. split; vm_compute; reflexivity. Qed.
@@ C47_length
Example C47_length_met : b64url "fooba?" = "Zm9vYmE_"%string.
Proof. vm_compute; reflexivity. Qed.
@@ C46_generated_pair
Example C46_generated_pair_met : exists sha random verifier challenge,
  String.length random = 96%nat /\ (forall s, String.length (sha s) = 32%nat) /\
  code_verifier sha (Some random) = Some (verifier, challenge).
Proof.
  exists (demo_hash 32), random96. do 2 eexists. split; [vm_compute; reflexivity|].
  split; [intros; apply demo_hash_len|reflexivity].
Qed.
@@ C46_validate_refuses_generated_refuted
Example C46_validate_refuses_generated_refuted_met : exists sha random verifier challenge,
  String.length random = 96%nat /\ (forall s, String.length (sha s) = 32%nat) /\
  code_verifier sha (Some random) = Some (verifier, challenge).
Proof.
  exists (demo_hash 32), random96. do 2 eexists. split; [vm_compute; reflexivity|].
  split; [intros; apply demo_hash_len|reflexivity].
Qed.
@@ C46_validate_is_equality_partial
Example C46_validate_is_equality_partial_met :
  pkce_validate "aGVsbG8" "aGVsbG8" = Some true /\ pkce_validate "aGVsbG8" "aGVsbG9" = Some true /\
  pkce_validate "aGVsbG8" "aGVsbG4" = Some false /\ pkce_validate "aGVsbG8" "aGVsb" = None /\ pkce_validate "aGVs" "aGVt" = Some false.
Proof. repeat split; vm_compute; reflexivity. Qed.
@@ C51_codes
Example C51_codes_met : exists draw, draws_from_charset draw.
Proof. exists demo_draw. exact demo_draws. Qed.
@@ C51_user_codes
Example C51_user_codes_met : exists draw, draws_from_charset draw /\ generate_num_user_code draw = "012-345-678"%string.
Proof. exists demo_draw. split; [exact demo_draws|vm_compute; reflexivity]. Qed.
@@ C30_generated_uri_refused_refuted
Example C30_generated_uri_refused_refuted_met : exists draw, draws_from_charset draw /\ generate_request_uri draw = "ABCDEFGHIJKLMNOPQRSTUVWXYZabcdef"%string.
Proof. exists demo_draw. split; [exact demo_draws|vm_compute; reflexivity]. Qed.
@@ C30_accepted_uris_partial
Example C30_accepted_uris_partial_met :
  validate_request_uri "urn:solid:ABCDEFGHIJKLMNOPQRSTUVWXYZabcdef" = true /\
  validate_request_uri "junk urn:solid:ABCDEFGHIJKLMNOPQRSTUVWXYZabcdef-more" = true /\
  validate_request_uri "urn:solid:ABCDEFGHIJKLMNOPQRSTUVWXYZabcde" = false.
Proof. repeat split; vm_compute; reflexivity. Qed.
@@ C50_rejections
Example C50_rejections_met : only_space "  " /\ ~ only_space " alice" /\ (16 <= String.length "0123456789abcdef" <= 64)%nat.
Proof.
  split; [repeat constructor|]. split; [|cbn; lia]. intros H. inversion H as [|? ? A B]; subst. inversion B; discriminate.
Qed.
@@ C50_distinct_partial
Example C50_distinct_partial_met : exists blake salt sector sector' subject subject' v,
  (forall x y, blake salt x = blake salt y -> x = y) /\
  pairwise_encode blake salt sector subject = Some v /\ pairwise_encode blake salt sector' subject' = Some v.
Proof.
  exists (fun _ m => m), "0123456789abcdef"%string, "example.com"%string, "example.com"%string, "alice"%string, " alice"%string.
  eexists. split; [auto|]. split; vm_compute; reflexivity.
Qed.
@@ C50_distinct_refuted
Example C50_distinct_refuted_met : (16 <= String.length "0123456789abcdef" <= 64)%nat.
Proof. cbn; lia. Qed.
@@ C40_contains
Example C40_contains_met : contains fold_ascii ["openid"; "Email"]%string "EMAIL" = true /\ contains fold_ascii ["openid"; "Email"]%string "mail" = false.
Proof. split; vm_compute; reflexivity. Qed.
@@ C40_add
Example C40_add_met : add_if_not_contains fold_ascii ["openid"]%string "OpenID" = ["openid"]%string /\
  add_if_not_contains fold_ascii ["openid"]%string "email" = ["openid"; "email"]%string.
Proof. split; vm_compute; reflexivity. Qed.
@@ C40_remove
Example C40_remove_met : remove_first fold_ascii ["a"; "b"; "B"; "c"]%string "B" = ["a"; "B"; "c"]%string /\
  remove_first fold_ascii ["a"]%string "b" = ["a"]%string.
Proof. split; vm_compute; reflexivity. Qed.
@@ C40_has_one_of
Example C40_has_one_of_met : has_one_of fold_ascii ["a"; "b"]%string ["x"; "A"]%string = true /\ has_one_of fold_ascii ["a"]%string [] = false.
Proof. split; vm_compute; reflexivity. Qed.
@@ C40_has_all
Example C40_has_all_met : has_all fold_ascii ["a"; "b"]%string ["B"; "A"]%string = true /\ has_all fold_ascii ["a"; "b"]%string ["a"; "c"]%string = false /\
  has_all fold_ascii ["a"]%string [] = false.
Proof. repeat split; vm_compute; reflexivity. Qed.
@@ C59_built_errors_partial
Example C59_built_errors_partial_met : exists c before after e,
  c <> TokenExpired /\ before <> [] /\
  nth_error (run_builder (new_builder c) (before ++ CallBuild :: after))
    (List.length (filter (fun x => match x with CallBuild => true | _ => false end) before)) = Some e.
Proof.
  exists InvalidGrant, [CallState "s1"; CallBuild; CallState "s2"], [CallState ""; CallBuild]. eexists.
  split; [discriminate|]. split; [discriminate|]. vm_compute; reflexivity.
Qed.
@@ C59_expired_device_code_refuted
Example C59_expired_device_code_refuted_met : exists e calls, In e (run_builder (new_builder TokenExpired) calls).
Proof. eexists. exists [CallState "s1"; CallBuild]. left. reflexivity. Qed.
@@ C59_codes_distinct
Example C59_codes_distinct_met : exists c c' calls calls' e e',
  In e (run_builder (new_builder c) calls) /\ In e' (run_builder (new_builder c') calls') /\ bt_code e = bt_code e' /\ e <> e'.
Proof.
  exists InvalidGrant, InvalidGrant, [CallBuild], [CallState "s"; CallBuild]. do 2 eexists.
  split; [left; reflexivity|]. split; [left; reflexivity|]. split; [reflexivity|discriminate].
Qed.
@@ C54_verifier
Example C54_verifier_met : verified_with jarm_ext [other_key; public srv_key] "good" /\ jarm_dec "good" = Some jarm_good /\
  ~ verified_with jarm_ext [other_key] "good" /\
  ~ verified_with jarm_ext [mkJwk "srv-1" "enc" "public-srv-key"; mkJwk "srv-9" "sig" "public-srv-key"] "good".
Proof.
  split; [exists (mkJws (Some "jarm+jwt"%string) "srv-1" None), (public srv_key); repeat split; auto;
          [right; left; reflexivity|discriminate]|].
  split; [reflexivity|]. split.
  - intros (t & k & _ & [<-|[]] & _ & _ & H). discriminate H.
  - intros (t & k & Hp & [<-|[<-|[]]] & Hu & Hk & _); [apply Hu; reflexivity|].
    injection Hp as <-. destruct Hk as [Hk|Hk]; discriminate Hk.
Qed.
@@ C54_signature
Example C54_signature_met : validate_signature jarm_ext [other_key; public srv_key] "good" = true /\
  validate_signature jarm_ext [mkJwk "srv-1" "enc" "public-srv-key"] "good" = false.
Proof. split; vm_compute; reflexivity. Qed.
@@ C54_validate_token
Example C54_validate_token_met : validate_token jarm_ext jarm_dec [other_key; public srv_key] "bad" = Some jarm_bad /\
  validate_token jarm_ext jarm_dec [other_key] "bad" = None.
Proof. split; vm_compute; reflexivity. Qed.
@@ C48_round_trip_partial
w: jarm_ext; jarm_dec; public; jarm_sign; srv_key; (other_key :: public srv_key :: nil); iss; jarm_resp; _; 1000 * second; 1050 * second
  all: meet_tok.
@@ C48_long_lifetime_refuted
w: jarm_ext; one_dec long_claims; public; one_sign long_claims; srv_key; (other_key :: public srv_key :: nil); iss; long_resp; _; 1700000000 * second; 1700000000 * second
  all: meet_tok.
@@ C48_never_expires_refuted
w: jarm_ext; one_dec wrap_claims; public; one_sign wrap_claims; srv_key; (other_key :: public srv_key :: nil); iss; wrap_resp; _; 1700000000 * second; 99000000000 * second
  all: meet_tok.
@@ C48_error_round_trip_partial
w: jarm_ext; jarm_dec; public; jarm_sign; srv_key; [public srv_key]; iss; jarm_err; _; 1000 * second; "app"%string; _; _
  all: meet_tok.
@@ C48_sdk_signer_refuted
w: jarm_ext; jarm_dec; public; jarm_sign; Some (KKey srv_key); iss; Some jarm_resp; _; 1000 * second
  all: meet_tok.
@@ C49_accepted_responses
w: jarm_ext; jarm_dec; Some [public srv_key]; iss; "app"%string; "good"%string; 1060 * second; _
  all: meet_tok.
@@ C49_error_responses_partial
w: jarm_ext; jarm_dec; Some [public srv_key]; iss; "app"%string; "bad"%string; 1060 * second; _; _
  all: meet_tok.
@@ C49_error_responses_refuted
w: jarm_ext; jarm_dec; [public srv_key]; "bad"%string; _; _; "other-app"%string
  all: meet_tok.
@@ C52_introspection_document
Example C52_introspection_document_met : t_meta a_token = Some a_meta /\ usable_at a_token 1001 /\ usable_at a_token 4600 /\
  ~ usable_at a_token 1000 /\ ~ usable_at a_token 4601.
Proof.
  assert (H : forall n, usable_at a_token n <-> (1001 <= n <= 4600)).
  { intros n. unfold usable_at. split.
    - intros (_ & m & [= <-] & A). exact A.
    - intros A. split; [reflexivity|]. exists a_meta. split; [reflexivity|exact A]. }
  rewrite !H. split; [reflexivity|]. lia.
Qed.
@@ C53_access_token_claims
Example C53_access_token_claims_met : exists c, jc_sub c = "alice"%string /\ jc_cnf c = Some "thumb"%string /\
  forall ser, access_token_generate all_checks (Some ser) (Some a_token) 2000 = ser c.
Proof. eexists. split; [|split; [|reflexivity]]; reflexivity. Qed.
@@ C53_refresh_token_claims_partial
Example C53_refresh_token_claims_partial_met : exists c, jc_sub c = "alice"%string /\
  forall ser, refresh_token_generate all_checks (Some ser) (Some a_token) 2000 = ser c.
Proof. eexists. split; [|reflexivity]; reflexivity. Qed.
@@ C53_refresh_confirmation_refuted
Example C53_refresh_confirmation_refuted_met : exists c, t_cnf a_token <> None /\
  forall ser, refresh_token_generate all_checks (Some ser) (Some a_token) 2000 = ser c.
Proof. eexists. split; [discriminate|reflexivity]. Qed.
@@ C55_key_cache
Example C55_key_cache_met : exists cs,
  run_keys fresh_client cs = [(KeysOk [app_key] 2000, true); (KeysOk [app_key] 2000, false); (KeysOk [att_key] 3000, true)].
Proof.
  exists [mkKeysCall 1000 (JwksDoc (Some [app_key]) 2000) 1000; mkKeysCall 1999 (JwksDoc (Some [att_key]) 3000) 1999;
          mkKeysCall 2000 (JwksDoc (Some [att_key]) 3000) 2000]%N. reflexivity.
Qed.
@@ C56_admission_partial
Example C56_admission_partial_met : exists E lower perms assertion introspect intent acr max_age r tr,
  runs (authorizer E lower perms assertion introspect intent acr max_age r) tr (Done RsNext) /\ acr <> [] /\ (0 < max_age)%N.
Proof.
  exists web_ext, to_lower, demo_perms, (Some "assertion"%string), (rs_introspect (Some (b64url "thumb:instance-key"))),
    "read"%string, ["gold"%string], 60%N, (api_r "DPoP at-1"), api_calls.
  split; [by_run|]. split; [discriminate|reflexivity].
Qed.
Example C56_admission_partial_met_bearer : exists E lower perms assertion introspect intent acr max_age r tr,
  runs (authorizer E lower perms assertion introspect intent acr max_age r) tr (Done RsNext) /\ acr <> [] /\ (0 < max_age)%N.
Proof.
  exists web_ext, to_lower, demo_perms, (Some "assertion"%string), (rs_introspect None),
    "read"%string, ["gold"%string], 60%N, (api_r "Bearer at-1"), [(CNow, ATime (1000 * second))].
  split; [by_run|]. split; [discriminate|reflexivity].
Qed.
@@ C56_no_context_refuted
Example C56_no_context_refuted_met : exists E lower perms (introspect : string -> string -> outcome (option rs_token)) intent (acr : list string) max_age r a s token t m,
  introspect a token = Done (Some t) /\ rt_active t = true /\ rt_meta t = Some m /\ rt_cnf t = None /\
  rm_auth_time m = None /\ rm_acr m = None /\
  hq_header r "Authorization" = (s ++ " " ++ token)%string /\ split_space s = (s, None) /\
  equal_fold (x_fold E) s "bearer" = true /\ String.prefix "bearer" (lower (s ++ " " ++ token)%string) = true /\
  permitted E perms intent (rm_client_id m) (rm_subject m) /\ acr <> [] /\ (0 < max_age)%N.
Proof.
  pose (m := mkRsMeta iss "alice" "app" "openid" "" None None). pose (t := mkRsToken true (Some m) None "at-1"%string).
  exists web_ext, to_lower, demo_perms, (fun _ _ => Done (Some t)), "read"%string, ["gold"%string], 60%N, (api_r "Bearer at-1"),
    "assertion"%string, "Bearer"%string, "at-1"%string, t, m.
  do 10 (split; [vm_compute; reflexivity|]). split.
  { do 2 eexists. split; [reflexivity|]. split; [reflexivity|]. exists "alice"%string. split; [left; reflexivity|]. reflexivity. }
  split; [discriminate|reflexivity].
Qed.
@@ C61_document_partial
Example C61_document_partial_met : t_meta a_token = Some a_meta /\ usable_at a_token 2000 /\ t_cnf a_token <> None.
Proof.
  split; [reflexivity|]. split; [|discriminate].
  split; [reflexivity|]. exists a_meta. split; [reflexivity|]. vm_compute. split; discriminate.
Qed.
@@ C61_bearer_crashes_refuted
Example C61_bearer_crashes_refuted_met : exists E lower answer r (a : string) s token d,
  hq_header r "Authorization" = (s ++ " " ++ token)%string /\ split_space s = (s, None) /\
  equal_fold (x_fold E) s "bearer" = true /\ String.prefix "bearer" (lower (s ++ " " ++ token)%string) = true /\
  answer a token = HDoc d /\ d = introspection_doc a_token a_meta 2000 /\ usable_at a_token 2000.
Proof.
  exists web_ext, to_lower, (fun _ _ : string => HDoc (introspection_doc a_token a_meta 2000)), (api_r "Bearer at-1"),
    "assertion"%string, "Bearer"%string, "at-1"%string, (introspection_doc a_token a_meta 2000).
  do 6 (split; [vm_compute; reflexivity|]).
  split; [reflexivity|]. exists a_meta. split; [reflexivity|]. vm_compute. split; discriminate.
Qed.
@@ C61_client_crashes_refuted
Example C61_client_crashes_refuted_met : exists t m now value, usable_at t now /\ t_meta t = Some m /\
  introspection_result value (HDoc (introspection_doc t m now)) = Crashed.
Proof.
  exists a_token, a_meta, 2000%N, "at-1"%string. split; [|split; [reflexivity|apply C61_client_crashes_refuted]].
  split; [reflexivity|]. exists a_meta. split; [reflexivity|]. vm_compute. split; discriminate.
Qed.
@@ C61_nobody_admitted_refuted
Example C61_nobody_admitted_refuted_met : exists E lower perms assertion (answer : string -> string -> http_response) intent acr max_age r,
  (forall a v, exists d, answer a v = HDoc d) /\
  forall o, runs (authorizer E lower perms (Some assertion) (fun a v => introspection_result v (answer a v)) intent acr max_age r) [] o ->
    o = Crashed.
Proof.
  exists web_ext, to_lower, demo_perms, "assertion"%string, (fun _ _ => HDoc (introspection_doc a_token a_meta 2000)),
    "read"%string, [], 0%N, (api_r "Bearer at-1").
  split; [intros; eauto|]. intros o H. destruct o as [x|]; [|reflexivity]. exfalso.
  cbn [runs] in H. vm_compute in H. inversion H.
Qed.
@@ C58_authenticated_clients
Example C58_authenticated_clients_met : exists E next r tr resp, runs (client_authentication E next r) tr (Done resp) /\
  resp = HToken "at-1" 3600 "DPoP" "rt-1" all_scope.
Proof.
  exists web_ext, (token_handler web_ext iss (redeem_r dpop1)), (redeem_r dpop1),
    (hcalls 1 (http_history web_server (web_world true) x_http_code)). eexists. split; [by_run|reflexivity].
Qed.
Example C58_authenticated_clients_met_public : exists E next r tr resp, runs (client_authentication E next r) tr (Done resp) /\
  query_get r "client_id" = "spa"%string /\ forall status e, resp <> HError status e.
Proof.
  exists web_ext, (device_authorization_handler web_ext iss device_r), device_r,
    (hcalls 0 (http_history web_server (web_world true) x_http_device)). eexists. split; [by_run|].
  split; [reflexivity|discriminate].
Qed.
@@ C57_bound_tokens_partial
Example C57_bound_tokens_partial_met : exists E issuer r c tr q i t a,
  reach (token_handler E issuer r (Some c)) tr q /\ In (CTokCreate i t, a) tr /\ cl_dpop_bound c = true.
Proof.
  exists web_ext, iss, (redeem_r dpop1), (happ true), code_calls. do 4 eexists. split; [by_reach|].
  split; [apply (nth_error_In _ 10%nat); vm_compute; reflexivity|reflexivity].
Qed.
Example C57_bound_tokens_partial_met_refresh : exists E issuer r c tr q i t a,
  reach (token_handler E issuer r (Some c)) tr q /\ In (CTokCreate i t, a) tr /\ cl_dpop_bound c = true /\
  form_value r "grant_type" = "refresh_token"%string.
Proof.
  exists web_ext, iss, (refresh_r dpop2), (happ true), refresh_calls. do 4 eexists. split; [by_reach|].
  split; [apply (nth_error_In _ 10%nat); vm_compute; reflexivity|split; reflexivity].
Qed.
@@ C57_bound_tokens
Example C57_bound_tokens_met : exists S w xs i iss t a m c,
  registry_ok w /\ no_tokens w /\ In (HvCall i (CTokCreate iss t) a) (http_history S w xs) /\
  t_meta t = Some m /\ w_clients w (m_client_id m) = Some c /\ cl_dpop_bound c = true.
Proof.
  exists web_server, (web_world true), x_http_refresh, 2%nat. do 5 eexists.
  split; [apply registry_web|]. split; [apply blank_web|]. split; [by_nth 40%nat|]. repeat (split; [reflexivity|]). reflexivity.
Qed.
@@ C62_token_response_partial
Example C62_token_response_partial_met : exists E issuer r c tr access expires type refresh scope,
  runs (token_handler E issuer r (Some c)) tr (Done (HToken access expires type refresh scope)) /\
  refresh <> ""%string /\ type = "DPoP"%string /\ form_value r "grant_type" <> "refresh_token"%string.
Proof.
  exists web_ext, iss, (redeem_r dpop1), (happ true), code_calls. do 5 eexists. split; [by_run|].
  split; [discriminate|]. split; [reflexivity|discriminate].
Qed.
@@ C63_pushed_requests
Example C63_pushed_requests_met : exists E issuer dec r client tr q i uri stored_request a,
  reach (par_handler E issuer dec r client) tr q /\ In (CReqReg i uri stored_request, a) tr.
Proof.
  exists web_ext, iss, web_dec, par_r, (Some (happ true)), par_calls. do 5 eexists. split; [by_reach|].
  apply (nth_error_In _ 6%nat); vm_compute; reflexivity.
Qed.
@@ C64_signed_requests_partial
Example C64_signed_requests_partial_met : exists E issuer dec ser salt r user tr q i code s a,
  reach (authorization_handler E issuer dec ser salt r user) tr q /\ In (CSessReg i code s, a) tr /\
  exists asked, dec (query_get r "request") = Some asked /\ ar_request_uri asked = None.
Proof.
  exists web_ext, iss, web_dec, (fun _ => Some "jarm"%string), web_salt, (authorize_r "app" "req-app"), "hello"%string, authorize_calls.
  do 5 eexists. split; [by_reach|]. split; [apply (nth_error_In _ 3%nat); vm_compute; reflexivity|].
  eexists. split; reflexivity.
Qed.
Example C64_signed_requests_partial_met_uri : exists E issuer dec ser salt r user tr q i code s a,
  reach (authorization_handler E issuer dec ser salt r user) tr q /\ In (CSessReg i code s, a) tr /\
  exists asked uri, dec (query_get r "request") = Some asked /\ ar_request_uri asked = Some uri.
Proof.
  exists web_ext, iss, web_dec, (fun _ => Some "jarm"%string), web_salt, (authorize_r "app" "req-by-uri"), "hello"%string, uri_calls.
  do 5 eexists. split; [by_reach|]. split; [apply (nth_error_In _ 5%nat); vm_compute; reflexivity|].
  do 2 eexists. split; reflexivity.
Qed.
@@ C66_response_mode_refuted
(** The signed request asks for the mode fragment.jwt. *)
Example C66_response_mode_refuted_met : exists E issuer dec ser salt r user tr resp asked,
  runs (authorization_handler E issuer dec ser salt r user) tr (Done resp) /\
  dec (query_get r "request") = Some asked /\ ar_response_mode asked = Some "fragment.jwt"%string /\
  exists uri jarm, resp = HRedirectQuery uri jarm.
Proof.
  exists web_ext, iss, web_dec, (fun _ => Some "jarm"%string), web_salt, (authorize_r "app" "req-app-fragment"), "hello"%string,
    fragment_calls.
  do 2 eexists. split; [by_run|]. split; [reflexivity|]. split; [reflexivity|]. do 2 eexists. reflexivity.
Qed.
@@ C67_device_client_partial
Example C67_device_client_partial_met : exists E issuer r client tr q i user_code s a,
  reach (device_authorization_handler E issuer r client) tr q /\ In (CDevReg i user_code s, a) tr.
Proof.
  exists web_ext, iss, device_r, (Some hspa), device_calls. do 5 eexists. split; [by_reach|].
  apply (nth_error_In _ 3%nat); vm_compute; reflexivity.
Qed.
@@ C68_pairwise_partial
Example C68_pairwise_partial_met : exists S w xs i e r iss code s a granted c, let h := http_history S w xs in
  In (HvStart i e r) h /\ In (HvCall i (CSessReg iss code s) a) h /\ as_request s = Some granted /\
  ar_client_id granted = query_get r "client_id" /\ w_clients w (ar_client_id granted) = Some c /\
  cl_subject_type c = "pairwise"%string.
Proof.
  exists web_server, (web_world true), x_http_code, 0%nat, EAuthorize, (authorize_r "app" "req-app"). do 6 eexists.
  intros h. split; [by_start 0%nat|]. split; [by_nth 4%nat|]. repeat (split; [reflexivity|]). reflexivity.
Qed.
@@ C69_web_code_once
Example C69_web_code_once_met : exists S w xs hh1 hh2 i j r1 r2 code,
  http_history S w xs = (hh1 ++ hh2)%list /\
  got_tokens hh1 i r1 /\ sends_code r1 code /\
  In (HvStart j EToken r2) hh2 /\ sends_code r2 code /\ got_tokens (http_history S w xs) j r2.
Proof.
  exists web_server, (web_world false), x_web_code2, (firstn 23 h_code2), (skipn 23 h_code2), 1%nat, 3%nat, (redeem_r []),
    (redeem_r []), "code-1"%string.
  split; [by_cut|]. split; [by_tokens 7%nat 22%nat|]. split; [split; reflexivity|].
  split; [by_start 7%nat|]. split; [split; reflexivity|by_tokens 30%nat 45%nat].
Qed.
@@ C70_web_code_grant
Example C70_web_code_grant_met : exists S w xs i r access expires type refresh scope,
  registry_ok w /\ blank w /\
  responded (http_history S w xs) i EToken r (HToken access expires type refresh scope) /\
  form_value r "grant_type" = "authorization_code"%string /\ refresh <> ""%string.
Proof.
  exists web_server, (web_world true), x_http_code, 1%nat, (redeem_r dpop1). do 5 eexists.
  split; [apply registry_web|]. split; [apply blank_web|].
  split; [split; [by_start 7%nat|by_nth 26%nat]|]. split; [reflexivity|discriminate].
Qed.
@@ C71_web_revocation_permanent
Example C71_web_revocation_permanent_met : exists S w xs hh1 hh2 i r v j r2 k r3 doc,
  no_tokens w /\ web_no_reuse (sv_ext S) (http_history S w xs) /\ http_history S w xs = (hh1 ++ hh2)%list /\
  responded hh1 i ERevoke r HEmpty /\ form_value r "token" = v /\
  In (HvStart j EToken r2) hh2 /\ sends_refresh r2 v /\
  In (HvStart k EIntrospect r3) hh2 /\ form_value r3 "token" = v /\
  responded (http_history S w xs) k EIntrospect r3 (HDoc doc).
Proof.
  exists web_server, (web_world false), x_web_revoked, (firstn 31 h_revoked), (skipn 31 h_revoked), 2%nat, (token_r "/revoke" "rt-1"),
    "rt-1"%string, 3%nat, (refresh_r []), 4%nat, (token_r "/introspect" "rt-1"). eexists.
  split; [apply blank_web|]. split; [by_reuse|]. split; [by_cut|]. split; [split; [by_start 24%nat|by_nth 30%nat]|].
  split; [reflexivity|]. split; [by_start 0%nat|]. split; [split; reflexivity|]. split; [by_start 6%nat|].
  split; [reflexivity|]. split; [by_start 37%nat|by_nth 43%nat].
Qed.
@@ C72_web_introspection
Example C72_web_introspection_met : exists S w xs i r doc,
  no_tokens w /\ hno_faults xs /\ web_no_reuse (sv_ext S) (http_history S w xs) /\
  responded (http_history S w xs) i EIntrospect r (HDoc doc) /\
  exists l, doc = ("active"%string, JBool true) :: l.
Proof.
  exists web_server, (web_world false), x_web_intro, 2%nat, (token_r "/introspect" "at-1"). eexists.
  split; [apply blank_web|]. split; [by_faults|]. split; [by_reuse|].
  split; [split; [by_start 24%nat|by_nth 30%nat]|]. eexists. reflexivity.
Qed.
@@ C73_web_device_grant
Example C73_web_device_grant_met : exists S w xs i r access expires type refresh scope,
  registry_ok w /\ blank w /\ stamp_ok w /\
  responded (http_history S w xs) i EToken r (HToken access expires type refresh scope) /\
  form_value r "grant_type" = "urn:ietf:params:oauth:grant-type:device_code"%string /\ refresh <> ""%string.
Proof.
  exists web_server, web_worlds, x_web_device, 2%nat, (poll_r dpop1). do 5 eexists.
  split; [apply registry_webs|]. split; [apply blank_webs|]. split; [apply stamp_webs|].
  split; [split; [by_start 14%nat|by_nth 33%nat]|]. split; [reflexivity|discriminate].
Qed.
@@ C74_web_request_uri_once
Example C74_web_request_uri_once_met : exists S w xs hh1 hh2 i j r1 r2 uri,
  http_history S w xs = (hh1 ++ hh2)%list /\
  got_code hh1 i r1 /\ sends_request_uri S r1 uri /\
  In (HvStart j EAuthorize r2) hh2 /\ sends_request_uri S r2 uri /\ got_code (http_history S w xs) j r2.
Proof.
  exists web_server, (web_world true), x_web_par2, (firstn 20 h_par2), (skipn 20 h_par2), 1%nat, 3%nat,
    (authorize_r "app" "req-by-uri"), (authorize_r "app" "req-by-uri"), "urn:solid:1"%string.
  split; [by_cut|]. split; [eexists; split; [split; [by_start 11%nat|by_nth 19%nat]|exact I]|].
  split; [eexists; split; reflexivity|]. split; [by_start 11%nat|].
  split; [eexists; split; reflexivity|]. eexists; split; [split; [by_start 31%nat|by_nth 39%nat]|exact I].
Qed.
@@ C75_web_refresh_grant
Example C75_web_refresh_grant_met : exists S w xs i r access expires type refresh scope,
  registry_ok w /\ no_tokens w /\ web_no_reuse (sv_ext S) (http_history S w xs) /\
  responded (http_history S w xs) i EToken r (HToken access expires type refresh scope) /\
  form_value r "grant_type" = "refresh_token"%string.
Proof.
  exists web_server, (web_world false), x_web_rotate, 2%nat, refresh2_r. do 5 eexists.
  split; [apply registry_web|]. split; [apply blank_web|]. split; [by_reuse|].
  split; [split; [by_start 24%nat|by_nth 40%nat]|reflexivity].
Qed.
@@ C77_web_refresh_rotation_partial
Example C77_web_refresh_rotation_partial_met : exists S w xs hh1 hh2 i j r1 r2 value access expires type refresh scope,
  no_tokens w /\ web_no_reuse (sv_ext S) (http_history S w xs) /\ http_history S w xs = (hh1 ++ hh2)%list /\
  responded hh1 i EToken r1 (HToken access expires type refresh scope) /\ sends_refresh r1 value /\
  refresh <> ""%string /\ In (HvStart j EToken r2) hh2 /\ sends_refresh r2 value.
Proof.
  exists web_server, (web_world false), x_web_rotate, (firstn 41 h_rotate), (skipn 41 h_rotate), 2%nat, 3%nat, refresh2_r, refresh2_r,
    "rt-1"%string. do 5 eexists.
  split; [apply blank_web|]. split; [by_reuse|]. split; [by_cut|]. split; [split; [by_start 24%nat|by_nth 40%nat]|].
  split; [split; reflexivity|]. split; [discriminate|]. split; [by_start 0%nat|split; reflexivity].
Qed.
@@ C76_web_consent
Example C76_web_consent_met : exists S w xs h1 i iss t a h2 m,
  blank w /\ stamp_ok w /\ http_history S w xs = (h1 ++ HvCall i (CTokCreate iss t) a :: h2)%list /\
  t_meta t = Some m /\ m_subject m <> ""%string.
Proof.
  exists web_server, web_worlds, x_web_device. 
  pose (hh := http_history web_server web_worlds x_web_device).
  exists (firstn 27 hh), 2%nat. do 3 eexists. exists (skipn 28 hh). eexists.
  split; [apply blank_webs|]. split; [apply stamp_webs|]. split; [apply nth_split_at; vm_compute; reflexivity|].
  split; [reflexivity|discriminate].
Qed.
@@ C65_only_crashes_partial
Example C65_only_crashes_partial_met : exists S w xs i,
  blank w /\ hno_faults xs /\ In (HvDone i Crashed) (http_history S w xs).
Proof.
  exists web_server, (web_world true), x_http_revoke, 0%nat.
  split; [apply blank_web|]. split; [by_faults|by_nth 5%nat].
Qed.
@@ C78_success_needs_registered_grant
w: demo_ext; w0; x_code; 1%nat; redeem webapp "code-1"; _
@@ C78_tokens_need_registered_grant
w: demo_ext; w0; x_code; 1%nat; iss; _; _
@@ C79_in_memory_refuted
@@ C79_poll_pending_partial
w: demo_ext; w0s; x_poll0; firstn 0 (history demo_ext w0s x_poll0); firstn 6 (skipn 0 (history demo_ext w0s x_poll0)); skipn 6 (skipn 0 (history demo_ext w0s x_poll0)); 0%nat; _; _; 1%nat; pollreq webapp "device-1"; webapp; "device-1"%string; _
  - intros k q Hin. vm_compute in Hin. repeat (destruct Hin as [Hin|Hin]; [discriminate Hin|]). destruct Hin.
  - eexists. split; reflexivity.
  - eexists. split; [right; right; right; left; reflexivity|reflexivity].
@@ C80_honest_proof_accepted_partial
w: dpop_ext; w0; x_proved; 0%nat; _; public; dpop_sign; (fun s => s); holder_key; "POST"%string; tok_url; None; None; "jti-1"%string; 1005; "good"%string; _
  all: try (left; reflexivity).
  all: meet_tok.
@@ C80_sdk_signer_refuted
w: dpop_ext; public; dpop_sign; (fun s => s); Some (KKey holder_key); "POST"%string; tok_url; None; "jti-1"%string; 1005; "sdk"%string; "POST"%string; tok_url; None; None; []; Done None
  all: try meet_tok.
  constructor.
@@ C51_code_validation
Example C51_code_validation_met : every_char (fun a => 33 <= byte a <= 126) "abcdefghijklmnopqrstuvwxyz012345" /\
  validate_code "abcdefghijklmnopqrstuvwxyz012345" = true /\ validate_code "abcdefghijklmnopqrstuvwxyz01234" = false.
Proof. split; [|split; vm_compute; reflexivity]. vm_compute.
  repeat (split; [split; discriminate|]). exact I. Qed.
@@ C81_requests_never_wait
Example C81_requests_never_wait_met : exists E w before r after,
  arrivals before = 1%nat /\ (13 <= turns (arrivals before) after)%nat /\ (1 <= turns 0 after)%nat /\
  In (EvStart (arrivals before) r) (history E w (before ++ SNew r :: after)).
Proof.
  exists demo_ext, w0, [SNew (RToken (Some (redeem webapp "code-1")))], (RToken (Some (redeem webapp "code-2"))),
    (SStep 0 ok :: List.repeat (SStep 1 ok) 13).
  split; [reflexivity|]. split; [apply Nat.leb_le; reflexivity|]. split; [apply Nat.leb_le; reflexivity|].
  right. left. reflexivity.
Qed.
@@ C81_http_requests_never_wait
Example C81_http_requests_never_wait_met : exists S w before e r after,
  http_arrivals before = 1%nat /\ (24 <= http_turns (http_arrivals before) after)%nat /\ (1 <= http_turns 0 after)%nat /\
  In (HvStart (http_arrivals before) e r) (http_history S w (before ++ HNew e r :: after)).
Proof.
  exists web_server, (web_world true), [HNew EToken refresh2_r], EToken, refresh2_r,
    (HStep 0 ok :: List.repeat (HStep 1 ok) 24).
  split; [reflexivity|]. split; [apply Nat.leb_le; reflexivity|]. split; [apply Nat.leb_le; reflexivity|].
  right. left. reflexivity.
Qed.
@@ C82_fresh_code_is_redeemed
w: demo_ext; w0; x_code; firstn 0 (history demo_ext w0 x_code); firstn 5 (skipn 0 (history demo_ext w0 x_code)); skipn 5 (skipn 0 (history demo_ext w0 x_code)); 0%nat; _; _; areq all_scope (Some "consent"%string); 1%nat; redeem webapp "code-1"; verifier; _
  all: meet_live.
@@ C83_live_refresh_token_works
w: demo_ext; w0; x_refresh; firstn 18 (history demo_ext w0 x_refresh); skipn 18 (history demo_ext w0 x_refresh); 1%nat; redeem webapp "code-1"; _; rt_demo; _; 2%nat; refreshreq webapp "rt-1"; webapp; _
  all: meet_live.
@@ C84_client_credentials_work
w: demo_ext; w0; x_cc; 0%nat; ccreq webapp; webapp; _
  all: meet_live.
@@ C85_approval_succeeds_partial
w: demo_ext; w0s; x_device; firstn 0 (history demo_ext w0s x_device); firstn 6 (skipn 0 (history demo_ext w0s x_device)); skipn 6 (skipn 0 (history demo_ext w0s x_device)); 0%nat; _; _; 1%nat; _; _
  all: meet_live.
@@ C86_valid_request_is_authorized
w: demo_ext; w0; x_code; 0%nat; _; areq all_scope (Some "consent"%string); webapp; _
  all: meet_live.
@@ C86_valid_request_is_registered
w: demo_ext; w0; x_par; 0%nat; pushreq; _; webapp; webapp; _
  all: meet_live.
@@ C87_pushed_request_is_authorized
w: demo_ext; w0; x_par; firstn 0 (history demo_ext w0 x_par); firstn 5 (skipn 0 (history demo_ext w0 x_par)); skipn 5 (skipn 0 (history demo_ext w0 x_par)); 0%nat; pushreq; _; _; 1%nat; byuri; frontreq; _
  all: meet_live.
@@ C88_introspection_needs_client
w: demo_ext; w0; x_intro; 2%nat; _; _
  all: meet_live.
@@ C88_revocation_needs_client
w: demo_ext; w0; x_revoked; 2%nat; _; _
  all: meet_live.
@@ C88_revoked_for_client
w: demo_ext; w0; x_revoked; firstn 21 (history demo_ext w0 x_revoked); 2%nat; _; _; _; skipn 22 (history demo_ext w0 x_revoked)
  all: meet_live.
@@ C89_device_response
w: demo_ext; w0; x_device; 0%nat; _; _
  all: meet_live.
@@ C90_approval_gate
w: demo_ext; w0s; x_device; 1%nat; _; _
  all: meet_live.
@@ C90_approved_once
w: demo_ext; w0s; x_reapprove; firstn 12 (history demo_ext w0s x_reapprove); skipn 12 (history demo_ext w0s x_reapprove); 1%nat; 3%nat; _; _; _; _
  all: meet_live.
@@ C91_store_holds_hashes
Example C91_store_holds_hashes_met : exists E w xs k t,
  no_tokens w /\ w_tval (final E w xs) k = Some t /\ t_type t = TtRefresh /\ t_value t <> "rt-1"%string.
Proof. exists demo_ext, w0, x_code, (tok_key demo_ext iss "rt-1"). eexists. split; [apply blank_w0|]. split; [vm_compute; reflexivity|]. split; [reflexivity|]. vm_compute. discriminate. Qed.
@@ C92_linearizable
Example C92_linearizable_met :
  let h := rs_events (rrun [0; 0; 1; 0; 1; 1; 0; 0; 1; 0; 1; 1; 1; 1; 0]%nat (new_locked_rand (G := toy true) 7%N (toy_calls RInt))) in
  In (RvReturn 0%nat 0%nat RInt63 7%N) h /\ In (RvReturn 1%nat 0%nat RInt63 8%N) h.
Proof. vm_compute. tauto. Qed.
@@ C92_seed_decides
Example C92_seed_decides_met :
  let h := rs_events (rrun [0; 0; 0; 0; 0; 0; 1; 1; 1; 1; 1; 1]%nat (new_locked_rand (G := toy true) 7%N (toy_calls RInt))) in
  let h' := rs_events (rrun [1; 1; 1; 1; 1; 1; 0; 0; 0; 0; 0; 0]%nat (new_locked_rand (G := toy true) 7%N (toy_calls RInt))) in
  In (RvReturn 0%nat 0%nat RInt63 7%N) h /\ In (RvReturn 1%nat 0%nat RInt63 8%N) h /\
  In (RvReturn 1%nat 0%nat RInt63 7%N) h' /\ In (RvReturn 0%nat 0%nat RInt63 8%N) h'.
Proof. vm_compute. tauto. Qed.
@@ C92_call_can_return
Example C92_call_can_return_met :
  methods_return (toy false) /\
  In (RvCall 1%nat 0%nat RInt63) (rs_events (rrun [0; 0; 1; 0; 1]%nat (new_locked_rand (G := toy false) 7%N (toy_calls RInt)))).
Proof. split; [exact toy_returns|]. vm_compute. tauto. Qed.
@@ C92_after_panic
Example C92_after_panic_met :
  In (RvPanic 2%nat 0%nat (RIntn 0)) (rs_events (rrun [0; 2; 2; 2; 0]%nat (new_locked_rand (G := toy true) 7%N (toy_calls (RIntn 0))))) /\
  In (RvNested 2%nat 0%nat RInt63) (rs_events (rrun [0; 2; 2; 2; 0]%nat (new_locked_rand (G := toy true) 7%N (toy_calls (RShuffle 5))))).
Proof. vm_compute. tauto. Qed.
@@ C92_calls_return_refuted
Example C92_calls_return_refuted_met : range_checked (toy true) /\ out_of_range (RIntn 0) = true.
Proof. split; [exact toy_checked|reflexivity]. Qed.
@@ C93_round_trip
Example C93_round_trip_met :
  built "flow.TokenRequest" a_request /\ representable (size_of "flow.TokenRequest" a_request) /\ size_of "flow.TokenRequest" a_request = 36.
Proof. split; [exact a_request_built|]. split; vm_compute; reflexivity. Qed.
@@ C93_decoded_again
Example C93_decoded_again_met :
  (* the name of a client, an unknown field 100, and an unknown group *)
  let d := map b8 [10; 1; 97; 162; 6; 1; 7; 211; 6; 8; 5; 212; 6]%N in
  exists m, In "client.Client"%string message_types /\ unmarshal "client.Client" (empty "client.Client") d = Ok m /\
    msg_unknown m = skipn 3 d /\ representable (size_of "client.Client" m).
Proof. eexists. split; [vm_compute; tauto|]. split; [vm_compute; reflexivity|]. split; vm_compute; reflexivity. Qed.
@@ C93_injective
Example C93_injective_met :
  built "client.ClientMeta" a_meta /\ built "client.ClientMeta" (empty "client.ClientMeta") /\
  marshal "client.ClientMeta" a_meta <> marshal "client.ClientMeta" (empty "client.ClientMeta").
Proof. split; [exact a_meta_built|]. split; [apply built_empty; vm_compute; tauto|]. vm_compute. discriminate. Qed.
@@ C93_hollow_grant_refuted
Example C93_hollow_grant_refuted_met : nth_error (msg_fields hollow) 7 = Some (FOneof (Some (10, None))).
Proof. reflexivity. Qed.
@@ C94_size
Example C94_size_met : value "client.ClientMeta" a_meta /\ size_of "client.ClientMeta" a_meta = 18.
Proof. split; [apply built_value; exact a_meta_built|vm_compute; reflexivity]. Qed.
@@ C95_decoding_total
Example C95_decoding_total_met :
  value "flow.TokenRequest" a_request /\
  unmarshal "flow.TokenRequest" a_request (map b8 [82; 255; 255; 255; 255; 255; 255; 255; 255; 127]%N) = Err EInvalidLength /\
  exists m, unmarshal "flow.TokenRequest" a_request (map b8 [90; 2; 8; 5]%N) = Ok m.
Proof. split; [apply built_value; exact a_request_built|]. split; [vm_compute; reflexivity|]. eexists. vm_compute. reflexivity. Qed.
@@ C95_hollow_grant_refuted
Example C95_hollow_grant_refuted_met :
  exists m, unmarshal "flow.TokenRequest" (empty "flow.TokenRequest") (map b8 [82; 3; 10; 1; 65]%N) = Ok m.
Proof. eexists. vm_compute. reflexivity. Qed.
@@ C96_concatenation
Example C96_concatenation_met :
  exists m1 m2, unmarshal "client.Client" a_client (map b8 [10; 1; 97]%N) = Ok m1 /\
    unmarshal "client.Client" m1 (map b8 [10; 1; 98; 162; 6; 0]%N) = Ok m2 /\ m1 <> m2.
Proof. eexists. eexists. split; [vm_compute; reflexivity|]. split; [vm_compute; reflexivity|]. discriminate. Qed.
@@ C97_same_bytes_refuted
Example C97_same_bytes_refuted_met : marshal "client.ClientMeta" (named [en; fr]) <> marshal "client.ClientMeta" (named [fr; en]).
Proof. vm_compute. discriminate. Qed.
@@ C97_entries_apart_refuted
Example C97_entries_apart_refuted_met :
  exists m, unmarshal "client.ClientMeta" (empty "client.ClientMeta") (map b8 [58; 5; 10; 1; 101; 18; 3; 50; 1; 65]%N) = Ok m /\
    nth_error (msg_fields m) 6 = Some (FMap [(map b8 [101]%N, map b8 [50; 1; 65]%N)]) /\
    nth_error (msg_fields m) 5 = Some (FOptStr (Some (map b8 [65]%N))).
Proof. eexists. split; [vm_compute; reflexivity|]. split; vm_compute; reflexivity. Qed.
@@ C98_credentials_accepted
Example C98_credentials_accepted_met : exists S w xs i r c cnf o,
  hno_faults xs /\ In (HvStart i EToken r) (http_history S w xs) /\ In (HvDone i o) (http_history S w xs) /\
  form_value r "grant_type" = "client_credentials"%string /\ comes_from S w (http_history S w xs) i r c /\ holds S w (http_history S w xs) i r c cnf /\
  w_clients w (cl_id c) = Some c /\ cl_type c = CtConfidential /\ listed (sv_ext S) (cl_grant_types c) "client_credentials" /\
  sv_issuer S <> ""%string /\ x_request_uri (sv_ext S) (sv_issuer S) = true /\ web_generators_work (http_history S w xs) i.
Proof.
  exists web_server, (web_world false), x_sdk_token, 0%nat, sdk_token_r, (happ false), None. eexists.
  split; [by_faults|]. split; [by_start 0%nat|]. split; [by_nth 9%nat|]. split; [reflexivity|]. split.
  { right; left. split; [reflexivity|]. split; [reflexivity|].
    apply (C98_sdk_assertion_accepted_proof _ _ _ _ _ _ _ (sdk_uses false) (sdk_signed false)). vm_compute. discriminate. }
  split; [left; repeat split|]. split; [reflexivity|]. split; [reflexivity|]. split; [apply has_iff; reflexivity|].
  split; [discriminate|]. split; [reflexivity|].
  intros t a [H|H]; scan H; eexists; (split; [reflexivity|discriminate]).
Qed.
@@ C98_sdk_assertion_accepted
Example C98_sdk_assertion_accepted_met : exists S w c sign raw made until,
  uses_sdk S w c sign /\ sdk_assertion c sign raw made /\ until = unix (made + 30 * second).
Proof. exists web_server, (web_world true), (happ true), sdk_sign. do 3 eexists. split; [apply sdk_uses|]. split; [apply sdk_signed|reflexivity]. Qed.
@@ C98_sdk_gets_token
Example C98_sdk_gets_token_met : exists S w xs i c sign raw made tls host path o,
  hno_faults xs /\ uses_sdk S w c sign /\ sdk_assertion c sign raw made /\
  In (HvStart i EToken (credentials_request tls host path raw)) (http_history S w xs) /\ In (HvDone i o) (http_history S w xs) /\
  (unix (w_now w + time_in (http_history S w xs)) <= unix (made + 30 * second))%N /\
  cl_type c = CtConfidential /\ cl_dpop_bound c = false /\ listed (sv_ext S) (cl_grant_types c) "client_credentials" /\
  sv_issuer S <> ""%string /\ x_request_uri (sv_ext S) (sv_issuer S) = true /\ web_generators_work (http_history S w xs) i.
Proof.
  exists web_server, (web_world false), x_sdk_token, 0%nat, (happ false), sdk_sign, "sdk-assertion"%string, (1000 * second)%N, true, "as.example"%string, "/token"%string. eexists.
  split; [by_faults|]. split; [apply sdk_uses|]. split; [apply sdk_signed|]. split; [by_start 0%nat|]. split; [by_nth 9%nat|].
  split; [vm_compute; discriminate|]. split; [reflexivity|]. split; [reflexivity|]. split; [apply has_iff; reflexivity|].
  split; [discriminate|]. split; [reflexivity|].
  intros t a [H|H]; scan H; eexists; (split; [reflexivity|discriminate]).
Qed.
@@ C98_introspection_partial
Example C98_introspection_partial_met : exists S w xs hh0 hh1 hh2 hh3 i r access expires type refresh scope j c sign raw made tls host path o,
  registry_ok w /\ no_tokens w /\ hno_faults xs /\ web_no_reuse (sv_ext S) (http_history S w xs) /\
  http_history S w xs = (hh0 ++ hh1 ++ hh2 ++ hh3)%list /\
  In (HvStart i EToken r) hh1 /\ In (HvDone i (Done (HToken access expires type refresh scope))) hh1 /\
  uses_sdk S w c sign /\ sdk_assertion c sign raw made /\ (unix (w_now w + time_in (http_history S w xs)) <= unix (made + 30 * second))%N /\
  In (HvStart j EIntrospect (introspection_request tls host path raw access)) hh3 /\ In (HvDone j o) hh3 /\
  (second <= time_in hh2)%N /\ (time_in (hh1 ++ hh2 ++ hh3) <= 3600 * second)%N /\
  (forall t, web_stored_as (sv_ext S) (http_history S w xs) (sv_issuer S) access t -> ~ web_revoked_in (http_history S w xs) (t_id t)).
Proof.
  pose (hh := http_history web_server (web_world false) (x_sdk_two (2 * second))).
  exists web_server, (web_world false), (x_sdk_two (2 * second)), [], (firstn 10 hh), (firstn 1 (skipn 10 hh)), (skipn 11 hh), 0%nat, sdk_token_r.
  do 5 eexists. exists 1%nat, (happ false), sdk_sign, "sdk-assertion"%string, (1000 * second)%N, true, "as.example"%string, "/introspect"%string. eexists.
  split; [apply registry_web|]. split; [apply blank_web|]. split; [by_faults|]. split; [by_reuse|].
  split; [reflexivity|]. split; [by_start 0%nat|]. split; [by_nth 9%nat|].
  split; [apply sdk_uses|]. split; [apply sdk_signed|]. split; [vm_compute; discriminate|].
  split; [by_start 0%nat|]. split; [by_nth 6%nat|]. split; [vm_compute; discriminate|]. split; [vm_compute; discriminate|].
  intros t _ (j & iss & a & H & _). scan H.
Qed.
@@ C98_sdk_introspects_refuted
Example C98_sdk_introspects_refuted_met : exists S w xs hh0 hh1 hh2 hh3 i r access expires type refresh scope j c sign raw made tls host path o,
  registry_ok w /\ no_tokens w /\ hno_faults xs /\ web_no_reuse (sv_ext S) (http_history S w xs) /\
  http_history S w xs = (hh0 ++ hh1 ++ hh2 ++ hh3)%list /\
  In (HvStart i EToken r) hh1 /\ In (HvDone i (Done (HToken access expires type refresh scope))) hh1 /\
  uses_sdk S w c sign /\ sdk_assertion c sign raw made /\ (unix (w_now w + time_in (http_history S w xs)) <= unix (made + 30 * second))%N /\
  In (HvStart j EIntrospect (introspection_request tls host path raw access)) hh3 /\ In (HvDone j o) hh3 /\
  (second <= time_in hh2)%N /\ (time_in (hh1 ++ hh2 ++ hh3) <= 3600 * second)%N /\
  (forall t, web_stored_as (sv_ext S) (http_history S w xs) (sv_issuer S) access t -> ~ web_revoked_in (http_history S w xs) (t_id t)).
Proof.
  pose (hh := http_history web_server (web_world false) (x_sdk_two (2 * second))).
  exists web_server, (web_world false), (x_sdk_two (2 * second)), [], (firstn 10 hh), (firstn 1 (skipn 10 hh)), (skipn 11 hh), 0%nat, sdk_token_r.
  do 5 eexists. exists 1%nat, (happ false), sdk_sign, "sdk-assertion"%string, (1000 * second)%N, true, "as.example"%string, "/introspect"%string. eexists.
  split; [apply registry_web|]. split; [apply blank_web|]. split; [by_faults|]. split; [by_reuse|].
  split; [reflexivity|]. split; [by_start 0%nat|]. split; [by_nth 9%nat|].
  split; [apply sdk_uses|]. split; [apply sdk_signed|]. split; [vm_compute; discriminate|].
  split; [by_start 0%nat|]. split; [by_nth 6%nat|]. split; [vm_compute; discriminate|]. split; [vm_compute; discriminate|].
  intros t _ (j & iss & a & H & _). scan H.
Qed.
@@ C98_new_token_is_active_refuted
Example C98_new_token_is_active_refuted_met : exists S w xs hh0 hh1 hh2 i r access expires type refresh scope j q doc,
  registry_ok w /\ no_tokens w /\ hno_faults xs /\ web_no_reuse (sv_ext S) (http_history S w xs) /\
  http_history S w xs = (hh0 ++ hh1 ++ hh2)%list /\
  In (HvStart i EToken r) hh1 /\ In (HvDone i (Done (HToken access expires type refresh scope))) hh1 /\
  responded (http_history S w xs) j EIntrospect q (HDoc doc) /\ form_value q "token" = access /\
  unix (w_now w + time_in (http_history S w xs)) = unix (w_now w + time_in hh0).
Proof.
  pose (hh := http_history web_server (web_world false) (x_sdk_two 1)).
  exists web_server, (web_world false), (x_sdk_two 1), [], (firstn 10 hh), (skipn 10 hh), 0%nat, sdk_token_r. do 5 eexists.
  exists 1%nat, sdk_introspect_r. eexists.
  split; [apply registry_web|]. split; [apply blank_web|]. split; [by_faults|]. split; [by_reuse|].
  split; [reflexivity|]. split; [by_start 0%nat|]. split; [by_nth 9%nat|].
  split; [split; [by_start 11%nat|by_nth 17%nat]|]. split; [reflexivity|vm_compute; reflexivity].
Qed.
@@ C98_bound_client_refuted
Example C98_bound_client_refuted_met : exists S w xs i c sign raw made tls host path resp,
  hno_faults xs /\ uses_sdk S w c sign /\ sdk_assertion c sign raw made /\ cl_dpop_bound c = true /\
  In (HvStart i EToken (credentials_request tls host path raw)) (http_history S w xs) /\ In (HvDone i (Done resp)) (http_history S w xs) /\
  (unix (w_now w + time_in (http_history S w xs)) <= unix (made + 30 * second))%N.
Proof.
  exists web_server, (web_world true), x_sdk_token, 0%nat, (happ true), sdk_sign, "sdk-assertion"%string, (1000 * second)%N, true, "as.example"%string, "/token"%string. eexists.
  split; [by_faults|]. split; [apply sdk_uses|]. split; [apply sdk_signed|]. split; [reflexivity|].
  split; [by_start 0%nat|]. split; [by_nth 3%nat|]. vm_compute; discriminate.
Qed.
@@ C99_web_refresh_works
Example C99_web_refresh_works_met : exists S w xs hh0 hh1 hh2 k r0 access0 expires0 type0 value scope0 i r c cnf o,
  registry_ok w /\ no_tokens w /\ hno_faults xs /\ web_no_reuse (sv_ext S) (http_history S w xs) /\
  http_history S w xs = (hh0 ++ hh1 ++ hh2)%list /\
  In (HvStart k EToken r0) hh1 /\ In (HvDone k (Done (HToken access0 expires0 type0 value scope0))) hh1 /\
  value <> ""%string /\ (forall c0, authenticated S w (http_history S w xs) k r0 c0 -> c0 = c) /\
  In (HvStart i EToken r) hh2 /\ In (HvDone i o) hh2 /\ (time_in (hh1 ++ hh2) <= 604800 * second)%N /\
  sends_refresh r value /\ comes_from S w (http_history S w xs) i r c /\ holds S w (http_history S w xs) i r c cnf /\
  listed (sv_ext S) (cl_grant_types c) "refresh_token" /\ web_generators_work (http_history S w xs) i /\
  (forall j e r', In (HvStart j e r') (http_history S w xs) -> web_uses_up S e r' value -> j = i).
Proof.
  exists web_server, (web_world false), x_web_refresh, (firstn 7 h_refresh), (firstn 16 (skipn 7 h_refresh)), (skipn 16 (skipn 7 h_refresh)), 1%nat, (redeem_r []).
  eexists. eexists. eexists. exists "rt-1"%string. eexists. exists 2%nat, refresh2_r, (happ false), None. eexists.
  split; [apply registry_web|]. split; [apply blank_web|]. split; [by_faults|]. split; [by_reuse|].
  split; [vm_compute; reflexivity|]. split; [by_start 0%nat|]. split; [by_nth 15%nat|]. split; [discriminate|].
  split. { intros c0 [(H & _)|[(_ & _ & cl & keys & k & H1 & H2 & _)|(_ & H & _)]]; [contradiction H; reflexivity| |discriminate H].
    cbn in H1. injection H1 as <-. cbn in H2. injection H2 as <-. reflexivity. }
  split; [by_start 1%nat|]. split; [by_nth 17%nat|]. split; [vm_compute; discriminate|].
  split; [split; reflexivity|]. split; [apply from_app; [reflexivity|reflexivity|right; split; [reflexivity|vm_compute; discriminate]]|].
  split; [left; repeat split|]. split; [apply has_iff; reflexivity|].
  split; [apply generators_demo; vm_compute; reflexivity|].
  intros j e r' H.
  pose proof (starts_demo (fun j e r => Nat.eqb j 2 || (match e with ERevoke => false | _ => negb (String.eqb (form_value r "grant_type") "refresh_token") end)) h_refresh
    ltac:(vm_compute; reflexivity) _ _ _ H) as D. cbv beta in D. clear H. apply orb_prop in D as [D|D]; [intros _; apply Nat.eqb_eq, D|].
  destruct e; try discriminate D; try (intros []; fail). intros [Hx _]. rewrite Hx in D. discriminate D.
Qed.
@@ C100_web_code_redeemed
Example C100_web_code_redeemed_met : exists S w xs hh0 hh1 hh2 k q code subject ar a i r c cnf o,
  registry_ok w /\ hno_faults xs /\ http_history S w xs = (hh0 ++ hh1 ++ hh2)%list /\ (time_in (hh1 ++ hh2) <= 60 * second)%N /\
  In (HvStart k EAuthorize q) hh1 /\ got_code hh1 k q /\
  In (HvCall k (CSessReg (sv_issuer S) code (mkSess (sv_issuer S) subject (Some ar))) a) hh1 /\
  asks (sv_ext S) (ar_scope ar) "openid" /\
  In (HvStart i EToken r) hh2 /\ In (HvDone i o) hh2 /\
  sends_code r code /\ form_value r "redirect_uri" = ar_redirect_uri ar /\
  (43 <= String.length (form_value r "code_verifier") <= 128)%nat /\
  b64url (x_sha256 (sv_ext S) (form_value r "code_verifier")) = ar_code_challenge ar /\
  comes_from S w (http_history S w xs) i r c /\ cl_id c = ar_client_id ar /\ holds S w (http_history S w xs) i r c cnf /\
  x_request_uri (sv_ext S) (sv_issuer S) = true /\ code <> ""%string /\ (rune_count code <= 1024)%nat /\
  web_generators_work (http_history S w xs) i /\
  (forall k' iss' code' s a', In (HvCall k' (CSessReg iss' code' s) a') (hh1 ++ hh2)%list ->
     sess_key (sv_ext S) iss' code' = sess_key (sv_ext S) (sv_issuer S) code -> k' = k) /\
  (forall j r' code', In (HvStart j EToken r') (http_history S w xs) -> sends_code r' code' ->
     sess_key (sv_ext S) (sv_issuer S) code' = sess_key (sv_ext S) (sv_issuer S) code -> j = i) /\
  asks (sv_ext S) (ar_scope ar) "offline_access" /\ ar_prompt ar = Some "consent"%string /\ cnf <> None.
Proof.
  exists web_server, (web_world true), x_http_code, (firstn 0 h_bound), (firstn 7 (skipn 0 h_bound)), (skipn 7 (skipn 0 h_bound)), 0%nat, (authorize_r "app" "req-app"), "code-1"%string.
  do 3 eexists. exists 1%nat, (redeem_r dpop1), (happ true). do 2 eexists.
  split; [apply registry_web|]. split; [by_faults|]. split; [vm_compute; reflexivity|]. split; [vm_compute; discriminate|].
  split; [by_start 0%nat|]. split; [eexists; split; [split; [by_start 0%nat|by_nth 6%nat]|exact I]|].
  split; [by_nth 4%nat|]. split; [apply has_iff; reflexivity|].
  split; [by_start 0%nat|]. split; [by_nth 19%nat|]. split; [split; reflexivity|]. split; [reflexivity|].
  split; [vm_compute; repeat constructor|]. split; [vm_compute; reflexivity|].
  split; [apply from_app; [reflexivity|reflexivity|left; split; [reflexivity|vm_compute; discriminate]]|].
  split; [reflexivity|].
  split. { right. split; [reflexivity|]. exists "thumb:instance-key"%string. split; [|reflexivity].
    exists "jti-3"%string, 1000%N, EToken, [], h_bound. split; [exact (proof_good "proof" "jti-3" "/token" (or_introl eq_refl))|].
    split; [vm_compute; reflexivity|]. split; [by_start 7%nat|]. split; [vm_compute; discriminate|]. split; [vm_compute; discriminate|]. split; [reflexivity|].
    intros j a H. apply Nat.eqb_eq. exact (proofs_demo (fun j _ => Nat.eqb j 1) h_bound ltac:(vm_compute; reflexivity) _ _ _ H). }
  split; [reflexivity|]. split; [discriminate|]. split; [apply Nat.leb_le; vm_compute; reflexivity|].
  split; [apply generators_demo; vm_compute; reflexivity|].
  split. { intros k' iss' code' s a' H _. apply Nat.eqb_eq.
    exact (sessions_demo (fun j _ _ _ => Nat.eqb j 0) (firstn 7 (skipn 0 h_bound) ++ skipn 7 (skipn 0 h_bound)) ltac:(vm_compute; reflexivity) _ _ _ _ _ H). }
  split. { intros j r' code' H _ _. apply Nat.eqb_eq.
    exact (starts_demo (fun j e _ => match e with EToken => Nat.eqb j 1 | _ => true end) h_bound ltac:(vm_compute; reflexivity) _ _ _ H). }
  split; [apply has_iff; reflexivity|]. split; [reflexivity|discriminate].
Qed.
@@ C101_web_authorized
Example C101_web_authorized_met : exists S w xs i r user c sub ar o,
  hno_faults xs /\ In (HvStart i EAuthorize r) (http_history S w xs) /\ In (HvDone i o) (http_history S w xs) /\
  hq_method r = "GET"%string /\ user_logged_in r user /\ w_clients w (query_get r "client_id") = Some c /\
  subject_for (sv_ext S) (sv_salt S) c user sub /\ sub <> ""%string /\
  carries S c r ar /\ ar_request_uri ar = None /\ ar_client_id ar = query_get r "client_id" /\
  SpecLive.well_formed (sv_ext S) ar /\ SpecLive.permitted (sv_ext S) c ar /\
  sv_issuer S <> ""%string /\ web_codes_work (http_history S w xs) i /\ responses_signed S.
Proof.
  exists web_server, (web_world true), x_http_code, 0%nat, (authorize_r "app" "req-app"), "hello"%string, (happ true). do 3 eexists.
  split; [by_faults|]. split; [by_start 0%nat|]. split; [by_nth 6%nat|]. split; [reflexivity|]. split; [split; reflexivity|].
  split; [reflexivity|]. split; [vm_compute; reflexivity|]. split; [discriminate|].
  split; [split; [discriminate|]; split; [apply app_signed; reflexivity|vm_compute; reflexivity]|].
  split; [reflexivity|]. split; [reflexivity|]. split; [apply areq_good; exact true|]. split; [apply areq_good|]. split; [discriminate|].
  split; [apply codes_demo; vm_compute; reflexivity|]. intros cl. eexists. reflexivity.
Qed.
@@ C102_web_pushed
Example C102_web_pushed_met : exists S w xs i r c th ar o,
  hno_faults xs /\ In (HvStart i EPar r) (http_history S w xs) /\ In (HvDone i o) (http_history S w xs) /\
  hq_method r = "POST"%string /\ comes_from S w (http_history S w xs) i r c /\ has_proof S w (http_history S w xs) i r th /\
  carries S c r ar /\ ar_request_uri ar = None /\ ar_client_id ar = cl_id c /\ w_clients w (cl_id c) = Some c /\
  SpecLive.well_formed (sv_ext S) ar /\ SpecLive.permitted (sv_ext S) c ar /\
  sv_issuer S <> ""%string /\ web_codes_work (http_history S w xs) i.
Proof.
  exists web_server, (web_world true), x_http_par, 0%nat, par_r, (happ true), "thumb:instance-key"%string. do 2 eexists.
  split; [by_faults|]. split; [by_start 0%nat|]. split; [by_nth 10%nat|]. split; [reflexivity|].
  split; [apply from_app; [reflexivity|reflexivity|left; split; [reflexivity|vm_compute; discriminate]]|].
  split. { exists "jti-6"%string, 1000%N, EPar, [], h_par. split; [exact (proof_good "proof-par" "jti-6" "/par" (or_intror eq_refl))|].
    split; [vm_compute; reflexivity|]. split; [by_start 0%nat|]. split; [vm_compute; discriminate|]. split; [vm_compute; discriminate|]. split; [reflexivity|].
    intros j a H. apply Nat.eqb_eq. exact (proofs_demo (fun j _ => Nat.eqb j 0) h_par ltac:(vm_compute; reflexivity) _ _ _ H). }
  split; [split; [discriminate|]; split; [apply app_signed; reflexivity|vm_compute; reflexivity]|].
  split; [reflexivity|]. split; [reflexivity|]. split; [reflexivity|]. split; [apply areq_good; exact true|]. split; [apply areq_good|]. split; [discriminate|].
  apply codes_demo; vm_compute; reflexivity.
Qed.
@@ C103_web_pushed_request_followed
Example C103_web_pushed_request_followed_met : exists S w xs hh0 hh1 hh2 k q iss uri expires ar i r user c sub ar0 o,
  hno_faults xs /\ http_history S w xs = (hh0 ++ hh1 ++ hh2)%list /\ (time_in (hh1 ++ hh2) <= 60 * second)%N /\
  In (HvStart k EPar q) hh1 /\ In (HvDone k (Done (HPushed iss uri expires))) hh1 /\
  sv_decoder S (query_get q "request") = Some ar /\
  In (HvStart i EAuthorize r) hh2 /\ In (HvDone i o) hh2 /\
  hq_method r = "GET"%string /\ user_logged_in r user /\ w_clients w (query_get r "client_id") = Some c /\
  subject_for (sv_ext S) (sv_salt S) c user sub /\ sub <> ""%string /\
  carries S c r ar0 /\ ar_request_uri ar0 = Some uri /\ x_uri_valid (sv_ext S) uri = true /\
  web_codes_work (http_history S w xs) i /\ responses_signed S /\
  (forall k' iss' uri' s a, In (HvCall k' (CReqReg iss' uri' s) a) (hh1 ++ hh2) ->
     req_key (sv_ext S) iss' uri' = req_key (sv_ext S) (sv_issuer S) uri -> k' = k) /\
  (forall j r' uri', In (HvStart j EAuthorize r') (http_history S w xs) -> sends_request_uri S r' uri' ->
     req_key (sv_ext S) (sv_issuer S) uri' = req_key (sv_ext S) (sv_issuer S) uri -> j = i).
Proof.
  exists web_server, (web_world true), x_http_par, (firstn 0 h_par), (firstn 11 (skipn 0 h_par)), (skipn 11 (skipn 0 h_par)), 0%nat, par_r.
  eexists. exists "urn:solid:1"%string. do 2 eexists. exists 1%nat, (authorize_r "app" "req-by-uri"), "hello"%string, (happ true). do 3 eexists.
  split; [by_faults|]. split; [vm_compute; reflexivity|]. split; [vm_compute; discriminate|].
  split; [by_start 0%nat|]. split; [by_nth 10%nat|]. split; [vm_compute; reflexivity|].
  split; [by_start 0%nat|]. split; [by_nth 8%nat|]. split; [reflexivity|]. split; [split; reflexivity|]. split; [reflexivity|].
  split; [vm_compute; reflexivity|]. split; [discriminate|].
  split; [split; [discriminate|]; split; [apply app_signed; reflexivity|vm_compute; reflexivity]|].
  split; [reflexivity|]. split; [reflexivity|]. split; [apply codes_demo; vm_compute; reflexivity|].
  split; [intros cl; eexists; reflexivity|].
  split. { intros k' iss' uri' s a H _. apply Nat.eqb_eq.
    exact (requests_demo (fun j _ _ _ => Nat.eqb j 0) (firstn 11 (skipn 0 h_par) ++ skipn 11 (skipn 0 h_par)) ltac:(vm_compute; reflexivity) _ _ _ _ _ H). }
  intros j r' uri' H _ _. apply Nat.eqb_eq.
  exact (starts_demo (fun j e _ => match e with EAuthorize => Nat.eqb j 1 | _ => true end) h_par ltac:(vm_compute; reflexivity) _ _ _ H).
Qed.
@@ C104_web_device_starts
Example C104_web_device_starts_met : exists S w xs i r c c' o,
  hno_faults xs /\ In (HvStart i EDeviceAuthorize r) (http_history S w xs) /\ In (HvDone i o) (http_history S w xs) /\
  hq_method r = "POST"%string /\ comes_from S w (http_history S w xs) i r c /\ form_value r "client_id" <> ""%string /\
  w_clients w (form_value r "client_id") = Some c' /\
  listed (sv_ext S) (cl_grant_types c') "urn:ietf:params:oauth:grant-type:device_code" /\
  sv_issuer S <> ""%string /\ web_device_codes_work (http_history S w xs) i.
Proof.
  exists web_server, web_worlds, x_web_device, 0%nat, device_scope_r, (happ true), (happ true). eexists.
  split; [by_faults|]. split; [by_start 0%nat|]. split; [by_nth 7%nat|]. split; [reflexivity|].
  split; [apply (from_app true); [reflexivity|reflexivity|left; split; [reflexivity|vm_compute; discriminate]]|].
  split; [discriminate|]. split; [reflexivity|]. split; [apply has_iff; reflexivity|]. split; [discriminate|].
  apply device_codes_demo; vm_compute; reflexivity.
Qed.
@@ C104_web_device_approved_partial
Example C104_web_device_approved_partial_met : exists S w xs hh0 hh1 hh2 d rd device_code user_code uri expires interval i r o,
  hno_faults xs /\ w_stamp w = stamping 120 /\ sv_issuer S <> ""%string /\
  http_history S w xs = (hh0 ++ hh1 ++ hh2)%list /\ (time_in (hh1 ++ hh2) <= 120 * second)%N /\
  web_device_codes_apart (sv_ext S) (http_history S w xs) /\ In (HvStart d EDeviceAuthorize rd) hh1 /\
  In (HvDone d (Done (HDevice device_code user_code uri expires interval))) hh1 /\
  In (HvStart i EDevice r) hh2 /\ In (HvDone i o) hh2 /\
  hq_method r = "POST"%string /\ hq_basic r = Some ("hello", "world")%string /\
  post_value r "user_code" = user_code /\ user_code <> ""%string /\
  (forall k r' issuer, In (HvStart k EDevice r') (http_history S w xs) ->
     user_key (sv_ext S) issuer (post_value r' "user_code") = user_key (sv_ext S) (sv_issuer S) user_code -> k = i).
Proof.
  exists web_server, web_worlds, x_web_device, (firstn 0 h_device), (firstn 8 (skipn 0 h_device)), (skipn 8 (skipn 0 h_device)), 0%nat, device_scope_r.
  do 5 eexists. exists 1%nat, approve_r. eexists.
  split; [by_faults|]. split; [reflexivity|]. split; [discriminate|]. split; [vm_compute; reflexivity|]. split; [vm_compute; discriminate|].
  split; [apply (device_one_demo _ _ 0%nat); vm_compute; reflexivity|]. split; [by_start 0%nat|]. split; [by_nth 7%nat|].
  split; [by_start 0%nat|]. split; [by_nth 5%nat|]. split; [reflexivity|]. split; [reflexivity|]. split; [reflexivity|]. split; [discriminate|].
  intros j r' i' H _. apply Nat.eqb_eq.
  exact (starts_demo (fun j e _ => match e with EDevice => Nat.eqb j 1 | _ => true end) h_device ltac:(vm_compute; reflexivity) _ _ _ H).
Qed.
@@ C104_web_device_tokens_partial
Example C104_web_device_tokens_partial_met : exists S w xs hh0 hh1 hh2 d rd device_code user_code uri expires interval k rk i r c cnf o,
  registry_ok w /\ blank w /\ hno_faults xs /\ w_stamp w = stamping 120 /\ x_request_uri (sv_ext S) (sv_issuer S) = true /\
  http_history S w xs = (hh0 ++ hh1 ++ hh2)%list /\ (time_in (hh1 ++ hh2) <= 120 * second)%N /\
  web_device_codes_apart (sv_ext S) (http_history S w xs) /\ In (HvStart d EDeviceAuthorize rd) hh1 /\
  In (HvDone d (Done (HDevice device_code user_code uri expires interval))) hh1 /\
  In (HvStart k EDevice rk) hh1 /\ In (HvDone k (Done HEmpty)) hh1 /\ post_value rk "user_code" = user_code /\
  In (HvStart i EToken r) hh2 /\ In (HvDone i o) hh2 /\
  comes_from S w (http_history S w xs) i r c /\ holds S w (http_history S w xs) i r c cnf /\
  form_value r "grant_type" = "urn:ietf:params:oauth:grant-type:device_code"%string /\
  form_value r "device_code" = device_code /\ device_code <> ""%string /\ cl_id c = form_value rd "client_id" /\
  listed (sv_ext S) (cl_grant_types c) "urn:ietf:params:oauth:grant-type:device_code" /\
  web_generators_work (http_history S w xs) i.
Proof.
  exists web_server, web_worlds, x_web_device, (firstn 0 h_device), (firstn 14 (skipn 0 h_device)), (skipn 14 (skipn 0 h_device)), 0%nat, device_scope_r.
  do 5 eexists. exists 1%nat, approve_r, 2%nat, (poll_r dpop1), (happ true). do 2 eexists.
  split; [apply registry_webs|]. split; [apply blank_webs|]. split; [by_faults|]. split; [reflexivity|]. split; [reflexivity|].
  split; [vm_compute; reflexivity|]. split; [vm_compute; discriminate|].
  split; [apply (device_one_demo _ _ 0%nat); vm_compute; reflexivity|]. split; [by_start 0%nat|]. split; [by_nth 7%nat|].
  split; [by_start 8%nat|]. split; [by_nth 13%nat|]. split; [reflexivity|]. split; [by_start 0%nat|]. split; [by_nth 19%nat|].
  split; [apply (from_app true); [reflexivity|reflexivity|left; split; [reflexivity|vm_compute; discriminate]]|].
  split. { right. split; [reflexivity|]. exists "thumb:instance-key"%string. split; [|reflexivity].
    exists "jti-3"%string, 1000%N, EToken, [], h_device. split; [exact (proof_good "proof" "jti-3" "/token" (or_introl eq_refl))|].
    split; [vm_compute; reflexivity|]. split; [by_start 14%nat|]. split; [vm_compute; discriminate|]. split; [vm_compute; discriminate|]. split; [reflexivity|].
    intros j a H. apply Nat.eqb_eq. exact (proofs_demo (fun j _ => Nat.eqb j 2) h_device ltac:(vm_compute; reflexivity) _ _ _ H). }
  split; [reflexivity|]. split; [reflexivity|]. split; [discriminate|]. split; [reflexivity|]. split; [apply has_iff; reflexivity|].
  apply generators_demo; vm_compute; reflexivity.
Qed.
@@ C104_web_device_flow_partial
Example C104_web_device_flow_partial_met : exists S w xs hh0 hh1 hh2 hh3 d rd cd cd' od k rk ok i r c cnf o,
  registry_ok w /\ blank w /\ hno_faults xs /\ w_stamp w = stamping 120 /\ sv_issuer S <> ""%string /\
  x_request_uri (sv_ext S) (sv_issuer S) = true /\
  http_history S w xs = (hh0 ++ hh1 ++ hh2 ++ hh3)%list /\ (time_in (hh1 ++ hh2 ++ hh3) <= 120 * second)%N /\
  web_device_codes_apart (sv_ext S) (http_history S w xs) /\
  In (HvStart d EDeviceAuthorize rd) hh1 /\ In (HvDone d od) hh1 /\ hq_method rd = "POST"%string /\
  comes_from S w (http_history S w xs) d rd cd /\ form_value rd "client_id" <> ""%string /\ w_clients w (form_value rd "client_id") = Some cd' /\
  listed (sv_ext S) (cl_grant_types cd') "urn:ietf:params:oauth:grant-type:device_code" /\ web_device_codes_work (http_history S w xs) d /\
  In (HvStart k EDevice rk) hh2 /\ In (HvDone k ok) hh2 /\ hq_method rk = "POST"%string /\
  hq_basic rk = Some ("hello", "world")%string /\ post_value rk "user_code" = "user-code"%string /\
  (forall k' r' issuer, In (HvStart k' EDevice r') (http_history S w xs) ->
     user_key (sv_ext S) issuer (post_value r' "user_code") = user_key (sv_ext S) (sv_issuer S) "user-code" -> k' = k) /\
  In (HvStart i EToken r) hh3 /\ In (HvDone i o) hh3 /\ comes_from S w (http_history S w xs) i r c /\ holds S w (http_history S w xs) i r c cnf /\
  form_value r "grant_type" = "urn:ietf:params:oauth:grant-type:device_code"%string /\
  form_value r "device_code" = "device-code"%string /\ cl_id c = form_value rd "client_id" /\ web_generators_work (http_history S w xs) i.
Proof.
  exists web_server, web_worlds, x_web_device, (firstn 0 h_device), (firstn 8 (skipn 0 h_device)), (firstn 6 (skipn 8 h_device)), (skipn 14 h_device), 0%nat, device_scope_r, (happ true), (happ true).
  eexists. exists 1%nat, approve_r. eexists. exists 2%nat, (poll_r dpop1), (happ true). do 2 eexists.
  split; [apply registry_webs|]. split; [apply blank_webs|]. split; [by_faults|]. split; [reflexivity|]. split; [discriminate|]. split; [reflexivity|].
  split; [vm_compute; reflexivity|]. split; [vm_compute; discriminate|].
  split; [apply (device_one_demo _ _ 0%nat); vm_compute; reflexivity|]. split; [by_start 0%nat|]. split; [by_nth 7%nat|]. split; [reflexivity|].
  split; [apply (from_app true); [reflexivity|reflexivity|left; split; [reflexivity|vm_compute; discriminate]]|].
  split; [discriminate|]. split; [reflexivity|]. split; [apply has_iff; reflexivity|]. split; [apply device_codes_demo; vm_compute; reflexivity|].
  split; [by_start 0%nat|]. split; [by_nth 5%nat|]. split; [reflexivity|]. split; [reflexivity|]. split; [reflexivity|].
  split. { intros j r' i' H _. apply Nat.eqb_eq.
    exact (starts_demo (fun j e _ => match e with EDevice => Nat.eqb j 1 | _ => true end) h_device ltac:(vm_compute; reflexivity) _ _ _ H). }
  split; [by_start 0%nat|]. split; [by_nth 19%nat|].
  split; [apply (from_app true); [reflexivity|reflexivity|left; split; [reflexivity|vm_compute; discriminate]]|].
  split. { right. split; [reflexivity|]. exists "thumb:instance-key"%string. split; [|reflexivity].
    exists "jti-3"%string, 1000%N, EToken, [], h_device. split; [exact (proof_good "proof" "jti-3" "/token" (or_introl eq_refl))|].
    split; [vm_compute; reflexivity|]. split; [by_start 14%nat|]. split; [vm_compute; discriminate|]. split; [vm_compute; discriminate|]. split; [reflexivity|].
    intros j a H. apply Nat.eqb_eq. exact (proofs_demo (fun j _ => Nat.eqb j 2) h_device ltac:(vm_compute; reflexivity) _ _ _ H). }
  split; [reflexivity|]. split; [reflexivity|]. split; [reflexivity|].
  apply generators_demo; vm_compute; reflexivity.
Qed.
@@ C104_web_device_flow_refuted
Example C104_web_device_flow_refuted_met : exists S w xs i r o,
  blank w /\ (forall t s, w_stamp w t s = s) /\
  In (HvStart i EDevice r) (http_history S w xs) /\ In (HvDone i o) (http_history S w xs) /\ hq_method r = "POST"%string /\
  user_logged_in r "hello" /\ post_value r "user_code" = "user-code"%string /\
  (exists d rd dc uri expires interval, responded (http_history S w xs) d EDeviceAuthorize rd (HDevice dc "user-code" uri expires interval)).
Proof.
  exists web_server, (web_world true), x_web_device, 1%nat, approve_r. eexists.
  split; [repeat split; reflexivity|]. split; [reflexivity|].
  split; [by_start 8%nat|]. split; [by_nth 11%nat|]. split; [reflexivity|]. split; [split; reflexivity|]. split; [reflexivity|].
  exists 0%nat, device_scope_r. do 4 eexists. split; [by_start 0%nat|by_nth 7%nat].
Qed.
@@ C105_linearizable_partial
Example C105_linearizable_partial_met : exists w, let h := shistory demo_ext x_steps in
  no_tokens w /\ creations_apart demo_ext h /\ ids_learnt h /\ no_deletions h /\
  In (SvReturn 2 (SGetByValue iss "at-1") SrMissing) h /\
  In (SvReturn 2 (SGetByValue iss "at-1") (SrToken (hashed demo_ext iss tok1))) h /\
  In (SvReturn 0 (SGetByValue iss "at-1") (SrToken (set_status (hashed demo_ext iss tok1) TsRevoked))) h.
Proof.
  exists w0. split; [apply blank_w0|]. split; [apply creations_demo; vm_compute; reflexivity|].
  split; [apply learnt_demo; vm_compute; reflexivity|]. split; [apply deletions_demo; vm_compute; reflexivity|].
  vm_compute. intuition.
Qed.
@@ C105_revoked_stays
Example C105_revoked_stays_met : exists h1 h2 t, let h := shistory demo_ext x_deleted in
  creations_apart demo_ext h /\
  h = (h1 ++ SvReturn 1 (SRevoke iss "id-1") SrOk :: h2 ++ SvReturn 2 (SGetByValue iss "at-1") (SrToken t) :: [])%list /\
  (exists c, In (SvCall 2 c) h2) /\ t_id t = "id-1"%string.
Proof.
  exists (firstn 5 (shistory demo_ext x_deleted)), (firstn 1 (skipn 6 (shistory demo_ext x_deleted))). eexists.
  split; [apply creations_demo; vm_compute; reflexivity|]. split; [vm_compute; reflexivity|].
  split; [eexists; vm_compute; left; reflexivity|vm_compute; reflexivity].
Qed.
@@ C105_found_by_id_refuted
Example C105_found_by_id_refuted_met : no_tokens w0.
Proof. apply blank_w0. Qed.
@@ C105_deleted_returns_refuted
Example C105_deleted_returns_refuted_met : no_tokens w0.
Proof. apply blank_w0. Qed.
@@ C106_attestation_valid
Example C106_attestation_valid_met : exists E w (public : jwk -> jwk) asign csign akey ckey data at_ pt att jti pop c from until,
  attester_signs E akey asign /\ attester_registered E w akey /\ pop_signs E (public ckey) csign /\ accepts_both E asign csign /\
  get_attestation (sign_handler public asign (Some data) at_) = Some att /\ att <> ""%string /\
  ad_public_key data = Some ckey /\ ad_client_id data <> ""%string /\
  client_pop csign jti pt = Some pop /\ jti <> ""%string /\ w_clients w "attestation-client" = Some c /\
  (unix at_ - 1 <= from)%N /\ (until <= unix at_ + 3600)%N /\ (unix pt - 1 <= from)%N /\ (until <= unix pt + 30)%N.
Proof.
  exists (att_ext true), att_world, (fun k => k), att_sign, pop_sign, att_key, dev_key, att_data, (1000 * second)%N, (1000 * second)%N,
    "example-att"%string, "jti-20"%string, "example-pop"%string, att_client, 1000%N, 1030%N.
  split; [apply att_signs|]. split; [apply att_registered|]. split; [apply pop_signed|]. split; [apply att_accepts|].
  split; [vm_compute; reflexivity|]. split; [discriminate|]. split; [reflexivity|]. split; [discriminate|].
  split; [vm_compute; reflexivity|]. split; [discriminate|]. split; [reflexivity|]. repeat split; vm_compute; discriminate.
Qed.
@@ C106_attested_token_partial
Example C106_attested_token_partial_met : exists S w xs hh0 hh1 i (public : jwk -> jwk) asign csign akey ckey data at_ pt att jti pop c tls host path o,
  hno_faults xs /\ http_history S w xs = (hh0 ++ hh1)%list /\
  attester_signs (sv_ext S) akey asign /\ attester_registered (sv_ext S) w akey /\
  pop_signs (sv_ext S) (public ckey) csign /\ accepts_both (sv_ext S) asign csign /\
  get_attestation (sign_handler public asign (Some data) at_) = Some att /\ att <> ""%string /\
  ad_public_key data = Some ckey /\ ad_client_id data <> ""%string /\ client_pop csign jti pt = Some pop /\ jti <> ""%string /\
  (unix at_ - 1 <= unix (w_now w + time_in hh0))%N /\ (unix (w_now w + time_in (http_history S w xs)) <= unix at_ + 3600)%N /\
  (unix pt - 1 <= unix (w_now w + time_in hh0))%N /\ (unix (w_now w + time_in (http_history S w xs)) <= unix pt + 30)%N /\
  In (HvStart i EToken (attested_request tls host path att pop)) hh1 /\ In (HvDone i o) (http_history S w xs) /\
  registry_ok w /\ w_clients w "attestation-client" = Some c /\ cl_type c = CtCredentialed /\ cl_dpop_bound c = false /\
  listed (sv_ext S) (cl_grant_types c) "client_credentials" /\
  sv_issuer S <> ""%string /\ x_request_uri (sv_ext S) (sv_issuer S) = true /\ web_generators_work (http_history S w xs) i.
Proof.
  exists (att_server true), att_world, (x_attested att_r), [HvTick (2 * second)],
    (tl (http_history (att_server true) att_world (x_attested att_r))), 0%nat, (fun k => k), att_sign, pop_sign, att_key, dev_key, att_data,
    (1000 * second)%N, (1001 * second - 1)%N, "example-att"%string, "jti-20"%string, "example-pop"%string, att_client, true, "as.example"%string, "/token"%string.
  eexists. split; [by_faults|]. split; [vm_compute; reflexivity|].
  split; [apply att_signs|]. split; [apply att_registered|]. split; [apply pop_signed|]. split; [apply att_accepts|].
  split; [vm_compute; reflexivity|]. split; [discriminate|]. split; [reflexivity|]. split; [discriminate|].
  split; [vm_compute; reflexivity|]. split; [discriminate|]. do 4 (split; [vm_compute; discriminate|]).
  split; [by_start 0%nat|]. split; [by_nth 14%nat|]. split; [apply registry_att|]. split; [reflexivity|]. split; [reflexivity|]. split; [reflexivity|].
  split; [apply has_iff; reflexivity|]. split; [discriminate|]. split; [reflexivity|]. apply generators_demo. vm_compute. reflexivity.
Qed.
@@ C106_example_refuted
Example C106_example_refuted_met : exists S w xs i (public : jwk -> jwk) asign alg data at_ att pop tls host path o,
  accepts_ecdsa_only (sv_ext S) alg /\ signs_eddsa alg asign /\
  (forall cl raw, asign cl = Some raw -> ~ In "~"%char (list_ascii_of_string raw)) /\
  get_attestation (sign_handler public asign data at_) = Some att /\ att <> ""%string /\
  In (HvStart i EToken (attested_request tls host path att pop)) (http_history S w xs) /\ In (HvDone i o) (http_history S w xs) /\
  (* with a registered attester and a good proof *)
  attester_signs (sv_ext S) att_key asign /\ attester_registered (sv_ext S) w att_key /\
  client_pop pop_sign "jti-20" (1000 * second) = Some pop /\ pop_signs (sv_ext S) dev_key pop_sign.
Proof.
  exists (att_server false), att_world, (x_attested att_r), 0%nat, (fun k => k), att_sign, att_alg, (Some att_data), (1000 * second)%N,
    "example-att"%string, "example-pop"%string, true, "as.example"%string, "/token"%string. eexists.
  split. { intros raw. cbn. unfold att_alg. destruct (String.eqb raw "example-att"); [discriminate|auto]. }
  split. { intros cl raw. unfold att_sign. destruct (claims_dec cl att_claims); [|discriminate]. intros [= <-]. reflexivity. }
  split. { intros cl raw H. apply (att_signs false) in H. apply H. }
  split; [vm_compute; reflexivity|]. split; [discriminate|]. split; [by_start 1%nat|]. split; [by_nth 2%nat|].
  split; [apply att_signs|]. split; [apply att_registered|]. split; [vm_compute; reflexivity|]. apply pop_signed.
Qed.
@@ C106_any_client_refuted
Example C106_any_client_refuted_met : exists S w xs hh0 hh1 i (public : jwk -> jwk) asign csign akey ckey name at_ att pop cp c r o,
  hno_faults xs /\ http_history S w xs = (hh0 ++ hh1)%list /\
  attester_signs (sv_ext S) akey asign /\ attester_registered (sv_ext S) w akey /\
  pop_signs (sv_ext S) (public ckey) csign /\ accepts_both (sv_ext S) asign csign /\
  get_attestation (sign_handler public asign (Some (mkAttData name (Some ckey))) at_) = Some att /\ att <> ""%string /\ name <> ""%string /\
  csign cp = Some pop /\ w_clients w (c_iss cp) = Some c /\ c_iss cp <> ""%string /\ c_jti cp <> ""%string /\ c_aud cp <> ""%string /\
  (unix at_ - 1 <= unix (w_now w + time_in hh0))%N /\ (unix (w_now w + time_in (http_history S w xs)) <= unix at_ + 3600)%N /\
  (c_nbf cp <= unix (w_now w + time_in hh0))%N /\ (0 < c_exp cp)%N /\ (unix (w_now w + time_in (http_history S w xs)) <= c_exp cp)%N /\
  query_get r "client_id" = ""%string /\
  post_value r "client_assertion_type" = "urn:ietf:params:oauth:client-assertion-type:jwt-client-attestation"%string /\
  post_value r "client_assertion" = (att ++ "~" ++ pop)%string /\ form_value r "grant_type" = "client_credentials"%string /\
  bearer r c /\
  In (HvStart i EToken r) hh1 /\ In (HvDone i o) (http_history S w xs) /\
  registry_ok w /\ cl_type c = CtConfidential /\
  listed (sv_ext S) (cl_grant_types c) "client_credentials" /\
  sv_issuer S <> ""%string /\ x_request_uri (sv_ext S) (sv_issuer S) = true /\ web_generators_work (http_history S w xs) i /\
  (* the client has keys of its own and another name *)
  name <> cl_id c /\ cl_jwks c <> ""%string.
Proof.
  exists (att_server true), att_world, (x_attested other_r), [HvTick (2 * second)],
    (tl (http_history (att_server true) att_world (x_attested other_r))), 0%nat, (fun k => k), att_sign, pop_sign, att_key, dev_key,
    "attestation-client"%string, (1000 * second)%N, "example-att"%string, "other-pop"%string, other_claims, (happ false), other_r.
  eexists. split; [by_faults|]. split; [vm_compute; reflexivity|].
  split; [apply att_signs|]. split; [apply att_registered|]. split; [apply pop_signed|]. split; [apply att_accepts|].
  split; [vm_compute; reflexivity|]. split; [discriminate|]. split; [discriminate|]. split; [vm_compute; reflexivity|].
  split; [reflexivity|]. do 3 (split; [discriminate|]). do 3 (split; [vm_compute; discriminate|]). split; [reflexivity|].
  split; [vm_compute; discriminate|]. do 4 (split; [reflexivity|]). split; [repeat split|].
  split; [by_start 0%nat|]. split; [by_nth 14%nat|]. split; [apply registry_att|]. split; [reflexivity|].
  split; [apply has_iff; reflexivity|]. split; [discriminate|]. split; [reflexivity|]. split; [apply generators_demo; vm_compute; reflexivity|].
  split; discriminate.
Qed.

@@ C107_metadata_shape
Example C107_metadata_shape_met : exists xs i v n,
  let sign := fun k s => String.append "signed:" s in
  In (MdSent i v) (md_history sign xs) /\ layers sign n v /\ v = "signed:signed:"%string.
Proof.
  exists [MdNew; MdNew; MdGo 0 (Some 0%N); MdGo 1 (Some 0%N); MdGo 1 (Some 0%N); MdGo 1 (Some 0%N); MdGo 0 (Some 0%N); MdGo 0 (Some 0%N); MdGo 0 None],
    0%nat, "signed:signed:"%string, 2%nat. cbn. split; [tauto|]. split; [|reflexivity].
  set (sign := fun (_ : N) (s : string) => ("signed:" ++ s)%string).
  exact (layers_sign sign 1 0%N "signed:" (layers_sign sign 0 0%N "" (layers_none sign))).
Qed.

@@ C107_metadata_undisturbed_partial
Example C107_metadata_undisturbed_partial_met : exists xs i v,
  let sign := fun k s => String.append "signed:" s in
  undisturbed (md_history sign xs) i /\ In (MdSent i v) (md_history sign xs) /\ v = "signed:"%string /\
  (exists j, In (MdSent j "") (md_history sign xs)).
Proof.
  (* requests 0 and 1 disturb each other; request 2 comes afterwards *)
  exists ([MdNew; MdNew] ++ repeat (MdGo 0 (Some 0%N)) 3 ++ [MdGo 1 (Some 0%N)] ++ repeat (MdGo 0 (Some 0%N)) 1 ++
          [MdNew] ++ repeat (MdGo 2 (Some 0%N)) 4)%list, 2%nat, "signed:"%string. cbv zeta. split; [|split; [|split]].
  - exists [MdCame 0; MdCame 1; MdStep 0; MdStep 0; MdStep 0; MdStep 1; MdSent 0 ""],
      [MdStep 2; MdStep 2; MdStep 2; MdSent 2 "signed:"], []. split; [reflexivity|].
    split; intros e H; cbn in H; repeat (destruct H as [<-|H]; [reflexivity|]); destruct H.
  - cbn; tauto.
  - reflexivity.
  - exists 0%nat. cbn; tauto.
Qed.

@@ C107_missing_refuted
Example C107_missing_refuted_met : exists sign : N -> string -> string, forall k s, sign k s <> ""%string.
Proof. exists (fun _ s => String.append "signed:" s). discriminate. Qed.

@@ C107_nested_refuted
Example C107_nested_refuted_met : exists sign : N -> string -> string, Nat.iter 3 (sign 0%N) ""%string = "signed:signed:signed:"%string.
Proof. exists (fun _ s => String.append "signed:" s). reflexivity. Qed.

@@ C108_discovery
Example C108_discovery_met : exists meta keys issuer signed k,
  meta (issuer ++ "/.well-known/oauth-authorization-server")%string = MetaDoc (announced issuer signed) /\
  pk_answer (keys (issuer ++ "/keys")%string) = JwksDoc (Some [k]) 0 /\ issuer = "https://as.example"%string /\
  (* other URLs bring nothing *)
  meta ""%string = MetaFails.
Proof.
  exists (fun u => if String.eqb u "https://as.example/.well-known/oauth-authorization-server" then MetaDoc (announced "https://as.example" "s") else MetaFails),
    (fun u => mkKeysCall 0 (if String.eqb u "https://as.example/keys" then JwksDoc (Some [mkJwk "k" "sig" "m"]) 0 else JwksFails) 0),
    "https://as.example"%string, "s"%string, (mkJwk "k" "sig" "m"). repeat split.
Qed.

@@ C108_usable
Example C108_usable_met : exists meta keys issuer c,
  new_client meta keys issuer = Done (Some c) /\ cs_expiration (sdk_keys c) = 50%N.
Proof.
  exists (fun _ => MetaDoc (announced "https://as.example" "s")), (fun _ => mkKeysCall 0 (JwksDoc (Some [mkJwk "k" "sig" "m"]) 50) 0),
    "https://as.example"%string. eexists. split; reflexivity.
Qed.

@@ C108_issuer_refuted
Example C108_issuer_refuted_met : exists meta keys issuer d k,
  meta (issuer ++ "/.well-known/oauth-authorization-server")%string = MetaDoc d /\ sm_issuer d <> issuer /\
  pk_answer (keys (sm_jwks d)) = JwksDoc (Some [k]) 0 /\ sm_token d = "https://as.example/token"%string /\ issuer = "https://evil.example"%string.
Proof.
  exists (fun _ => MetaDoc (announced "https://as.example" "s")), (fun _ => mkKeysCall 0 (JwksDoc (Some [mkJwk "k" "sig" "m"]) 0) 0),
    "https://evil.example"%string. do 2 eexists. split; [reflexivity|]. split; [discriminate|]. repeat split.
Qed.

@@ C108_null_refuted
Example C108_null_refuted_met : exists meta : string -> metadata_answer, exists issuer,
  meta (issuer ++ "/.well-known/oauth-authorization-server")%string = MetaNull.
Proof. exists (fun _ => MetaNull), "https://as.example"%string. reflexivity. Qed.

@@ C109_round_trip
Example C109_round_trip_met : exists utf8 read_u64 sign verify r raw,
  reads_back read_u64 /\ verifies verify sign /\ rq_max_age r = Some 3600%N /\ encode_request utf8 sign r = Some raw.
Proof. exists (fun _ => true), demo_read, demo_sign, demo_verify, demo_request, "signed"%string. split; [exact demo_reads|]. split; [exact demo_verifies|]. split; reflexivity. Qed.

@@ C109_encodes
Example C109_encodes_met : exists utf8 r s, In s (strings r) /\ utf8 s = true /\ (forall s, In s (strings r) -> utf8 s = true) /\ utf8 "255"%string = false.
Proof.
  exists (fun s => negb (String.eqb s "255")), demo_request, "https://r2"%string. split; [cbn; tauto|]. split; [reflexivity|]. split; [|reflexivity].
  intros s H. cbn in H. repeat (destruct H as [<-|H]; [reflexivity|]). destruct H.
Qed.

@@ C109_nothing_invented
Example C109_nothing_invented_met : exists read_u64 verify raw r,
  decode_request read_u64 verify raw = Some r /\ rq_resource r = ["https://r1"; "https://r2"]%string.
Proof. exists demo_read, demo_verify, "signed"%string, demo_request. split; reflexivity. Qed.

@@ C109_foreign_claims
Example C109_foreign_claims_met : exists (verify : string -> option (list (string * json))) raw d n j, verify raw = Some d /\ In (n, j) d /\ In n foreign_claims /\ In ("client_id", JsStr "app")%string d.
Proof.
  exists (fun _ => Some (("exp", JsNum "1000") :: demo_claims)%string), "raw"%string, (("exp", JsNum "1000") :: demo_claims)%string, "exp"%string, (JsNum "1000").
  cbn. tauto.
Qed.

@@ C109_standard_refuted
Example C109_standard_refuted_met : exists utf8 (verify : string -> option (list (string * json))) r server raw d d',
  write_values utf8 fields (values r) = Some d /\ Permutation d' (("aud"%string, JsStr server) :: d) /\ verify raw = Some d' /\ raw <> ""%string.
Proof.
  exists (fun _ => true), (fun _ => Some (("aud", JsStr "https://as.example") :: demo_claims)%string), demo_request, "https://as.example"%string, "raw"%string.
  do 2 eexists. split; [reflexivity|]. split; [|split; [reflexivity|discriminate]]. apply Permutation_refl.
Qed.
@@ C110_code_flow
Example C110_code_flow_met : exists S w xs hh0 hh1 hh2 hh4 hh5 k q user c sub ar resp i r cnf access expires type refresh scope j rj cj oj,
  registry_ok w /\ blank w /\ hno_faults xs /\ web_no_reuse (sv_ext S) (http_history S w xs) /\
  http_history S w xs = (hh0 ++ hh1 ++ hh2 ++ (hh4 ++ hh5))%list /\ (time_in (hh1 ++ hh2) <= 60 * second)%N /\
  In (HvStart k EAuthorize q) hh1 /\ In (HvDone k (Done resp)) hh1 /\
  hq_method q = "GET"%string /\ user_logged_in q user /\ w_clients w (query_get q "client_id") = Some c /\
  subject_for (sv_ext S) (sv_salt S) c user sub /\ sub <> ""%string /\
  carries S c q ar /\ ar_request_uri ar = None /\ ar_client_id ar = query_get q "client_id" /\
  SpecLive.well_formed (sv_ext S) ar /\ SpecLive.permitted (sv_ext S) c ar /\ asks (sv_ext S) (ar_scope ar) "openid" /\
  sv_issuer S <> ""%string /\ x_request_uri (sv_ext S) (sv_issuer S) = true /\ web_codes_work (http_history S w xs) k /\ responses_signed S /\
  In (HvStart i EToken r) hh2 /\ In (HvDone i (Done (HToken access expires type refresh scope))) hh2 /\
  form_value r "grant_type" = "authorization_code"%string /\
  (forall sent, sends_back S resp (ar_redirect_uri ar) sent (ar_state ar) (ar_client_id ar) -> sent = form_value r "code") /\
  form_value r "redirect_uri" = ar_redirect_uri ar /\
  (43 <= String.length (form_value r "code_verifier") <= 128)%nat /\
  b64url (x_sha256 (sv_ext S) (form_value r "code_verifier")) = ar_code_challenge ar /\
  comes_from S w (hh0 ++ hh1 ++ hh2)%list i r c /\ holds S w (hh0 ++ hh1 ++ hh2)%list i r c cnf /\
  form_value r "code" <> ""%string /\ (rune_count (form_value r "code") <= 1024)%nat /\
  web_generators_work (http_history S w xs) i /\
  (forall k' iss' code' s a', In (HvCall k' (CSessReg iss' code' s) a') (http_history S w xs) ->
     sess_key (sv_ext S) iss' code' = sess_key (sv_ext S) (sv_issuer S) (form_value r "code") -> k' = k) /\
  (forall j r' code', In (HvStart j EToken r') (http_history S w xs) -> sends_code r' code' ->
     sess_key (sv_ext S) (sv_issuer S) code' = sess_key (sv_ext S) (sv_issuer S) (form_value r "code") -> j = i) /\
  In (HvStart j EIntrospect rj) hh5 /\ In (HvDone j oj) hh5 /\ form_value rj "token" = access /\
  comes_from S w (http_history S w xs) j rj cj /\ w_clients w (cl_id cj) = Some cj /\
  (second <= time_in hh4)%N /\ (time_in (hh2 ++ (hh4 ++ hh5)) <= 3600 * second)%N /\
  (forall t, web_stored_as (sv_ext S) (http_history S w xs) (sv_issuer S) access t -> ~ web_revoked_in (http_history S w xs) (t_id t)).
Proof.
  exists flow_server, (web_world true), x_flow, [], (firstn 7 h_flow), (firstn 20 (skipn 7 h_flow)), (firstn 1 (skipn 27 h_flow)), (skipn 28 h_flow).
  exists 0%nat, (authorize_r "app" "req-app"), "hello"%string, (happ true). do 3 eexists. exists 1%nat, (redeem_r dpop1). do 6 eexists.
  exists 2%nat, ask_r, (happ true). eexists.
  split; [apply registry_web|]. split; [apply blank_web|]. split; [by_faults|]. split; [by_reuse|].
  split; [vm_compute; reflexivity|]. split; [vm_compute; discriminate|].
  split; [by_start 0%nat|]. split; [by_nth 6%nat|]. split; [reflexivity|]. split; [split; reflexivity|].
  split; [reflexivity|]. split; [vm_compute; reflexivity|]. split; [discriminate|].
  split; [split; [discriminate|]; split; [apply app_signed; reflexivity|vm_compute; reflexivity]|].
  split; [reflexivity|]. split; [reflexivity|]. split; [apply areq_good; exact true|]. split; [apply areq_good|].
  split; [apply has_iff; reflexivity|]. split; [discriminate|]. split; [reflexivity|].
  split; [apply codes_demo; vm_compute; reflexivity|]. split; [intros cl; eexists; reflexivity|].
  split; [by_start 0%nat|]. split; [by_nth 19%nat|]. split; [reflexivity|].
  split. { intros sent (_ & e & Q). cbn in Q. injection Q as ->. reflexivity. }
  split; [reflexivity|]. split; [vm_compute; repeat constructor|]. split; [vm_compute; reflexivity|].
  split; [apply (from_app true); [reflexivity|reflexivity|left; split; [reflexivity|vm_compute; discriminate]]|].
  split. { right. split; [reflexivity|]. exists "thumb:instance-key"%string. split; [|reflexivity].
    exists "jti-3"%string, 1000%N, EToken, []. eexists. split; [exact (proof_good "proof" "jti-3" "/token" (or_introl eq_refl))|].
    split; [reflexivity|]. split; [by_start 7%nat|]. split; [vm_compute; discriminate|]. split; [vm_compute; discriminate|]. split; [reflexivity|].
    intros j a H. apply Nat.eqb_eq.
    exact (proofs_demo (fun j _ => Nat.eqb j 1) ([] ++ firstn 7 h_flow ++ firstn 20 (skipn 7 h_flow)) ltac:(vm_compute; reflexivity) _ _ _ H). }
  split; [discriminate|]. split; [apply Nat.leb_le; vm_compute; reflexivity|].
  split; [apply generators_demo; vm_compute; reflexivity|].
  split. { intros k' iss' code' s a' H _. apply Nat.eqb_eq.
    exact (sessions_demo (fun j _ _ _ => Nat.eqb j 0) h_flow ltac:(vm_compute; reflexivity) _ _ _ _ _ H). }
  split. { intros j r' code' H _ _. apply Nat.eqb_eq.
    exact (starts_demo (fun j e _ => match e with EToken => Nat.eqb j 1 | _ => true end) h_flow ltac:(vm_compute; reflexivity) _ _ _ H). }
  split; [by_start 0%nat|]. split; [by_nth 6%nat|]. split; [reflexivity|].
  split; [apply (from_app true); [reflexivity|reflexivity|left; split; [reflexivity|vm_compute; discriminate]]|].
  split; [reflexivity|]. split; [vm_compute; discriminate|]. split; [vm_compute; discriminate|].
  intros t _. apply revokes_demo. vm_compute. reflexivity.
Qed.
@@ C105_one_at_a_time
Example C105_one_at_a_time_met : let h := shistory demo_ext x_alone in
  no_tokens w0 /\ one_at_a_time h /\
  In (SvReturn 1 (SGetByValue iss "at-1") (SrToken (hashed demo_ext iss tok1))) h /\
  In (SvReturn 2 (SDelete iss "id-1") SrOk) h /\ In (SvReturn 1 (SGetByValue iss "at-1") SrMissing) h /\
  In (SvReturn 2 (SDelete iss "id-1") SrMissing) h /\
  In (SvReturn 0 (SGet iss "id-1") (SrToken (set_status (hashed demo_ext iss tok1) TsRevoked))) h.
Proof.
  split; [apply blank_w0|]. split; [apply alone_demo; vm_compute; repeat split; eexists; reflexivity|]. vm_compute. tauto.
Qed.
@@ C111_one_purpose_partial
Example C111_one_purpose_partial_met :
  signs_documents doc_ext doc_sign doc_payload /\ decodes_members doc_ext doc_payload /\
  made_for doc_ext all_checks (fun _ => true) doc_sign MProof "good" /\ taken_as doc_ext (fun _ => None) doc_payload UProof "good".
Proof.
  split; [apply doc_signs|]. split; [apply doc_decodes|]. split.
  - exists "dpop+jwt"%string, true, (Some (KKey holder_key)). split; [cbn; auto|].
    exists (fun s => s), "POST"%string, tok_url, None, "jti-1"%string, 1005%N. vm_compute. reflexivity.
  - exists "POST"%string, tok_url, None, None,
      [(CNow, ATime (1005 * second)); (CNow, ATime (1005 * second)); (CProofExists (b64url (x_blake doc_ext "" "jti-1")), ABool (SOk false));
       (CProofReg (b64url (x_blake doc_ext "" "jti-1")), AUnit (SOk tt))], (b64url "thumb:public-dev-key").
    steps.
Qed.
@@ C111_tokens_partial
Example C111_tokens_partial_met : let ser c := jwt_serialize doc_sign "at" false (Some (KKey srv_key)) (token_doc c) in
  signs_documents doc_ext doc_sign doc_payload /\ decodes_members doc_ext doc_payload /\
  In "at"%string (types_of MAccessToken) /\
  access_token_generate all_checks (Some ser) (Some self_token) 1002 = Some "token"%string /\
  taken_as doc_ext (fun _ => None) doc_payload UAssertion "token" /\ m_subject self_meta = m_issuer self_meta.
Proof.
  intros ser. split; [apply doc_signs|]. split; [apply doc_decodes|]. split; [cbn; auto|]. split; [vm_compute; reflexivity|]. split; [|reflexivity].
  exists (mkAuthn (Some assertion_bearer) (Some "token"%string)),
    [(CNow, ATime (1005 * second)); (CClientGet "https://as.example", AClient (SOk as_client))], (aok (Some as_client)).
  split; [reflexivity|]. split; [|reflexivity]. steps.
Qed.
@@ C111_assertion_as_possession_refuted
Example C111_assertion_as_possession_refuted_met :
  jose_works own_ext (x_payload own_ext KPop) public own_sign /\
  client_assertion_generate all_checks (Some (jwt_serialize own_sign "client-assertion" false (Some (KKey holder_key)))) (Some own_token) 1002 = Some "own"%string /\
  x_parse_pop own_ext "own" = true /\ (forall x, In x (list_ascii_of_string "attestation") -> x <> "~"%char) /\
  runs (validate_attestation own_ext "attestation")
    [(CNow, ATime (1005 * second)); (CNow, ATime (1005 * second)); (CClientGet "attester", AClient (SOk attester))] (Done (Some (Some (public holder_key)))) /\
  (unix (1005 * second) <= m_expires_at own_meta)%N /\ (m_not_before own_meta <= unix (1005 * second))%N.
Proof.
  split; [apply own_works|]. split; [vm_compute; reflexivity|]. split; [reflexivity|].
  split; [cbn; intros x H; repeat (destruct H as [<-|H]; [discriminate|]); destruct H|].
  split; [steps|]. split; vm_compute; discriminate.
Qed.
@@ C108_crash_exactly_partial
Example C108_crash_exactly_partial_met : exists meta keys issuer d,
  meta (issuer ++ "/.well-known/oauth-authorization-server")%string = MetaDoc d /\
  pk_answer (keys (sm_jwks d)) = JwksDoc None 0 /\ new_client meta keys "https://other.example"%string = Done None.
Proof.
  exists (fun u => if String.eqb u "https://as.example/.well-known/oauth-authorization-server" then MetaDoc (announced "https://as.example" "s") else MetaFails),
    (fun _ => mkKeysCall 0 (JwksDoc None 0) 0), "https://as.example"%string. eexists. split; [reflexivity|]. split; reflexivity.
Qed.
@@ C108_fails_exactly
Example C108_fails_exactly_met : exists meta keys issuer,
  new_client meta keys issuer = Done None /\ pk_answer (keys "https://as.example/keys"%string) = JwksDoc (Some [mkJwk "k" "sig" "m"]) 50 /\
  (exists c, new_client meta (fun u => mkKeysCall 0 (pk_answer (keys u)) 50) issuer = Done (Some c)).
Proof.
  exists (fun _ => MetaDoc (announced "https://as.example" "s")), (fun _ => mkKeysCall 0 (JwksDoc (Some [mkJwk "k" "sig" "m"]) 50) 51),
    "https://as.example"%string. split; [reflexivity|]. split; [reflexivity|]. eexists. reflexivity.
Qed.
@@ C109_written
Example C109_written_met : exists utf8 sign r raw,
  encode_request utf8 sign r = Some raw /\ In ("max_age", "maxAge", VNum (Some 3600%N))%string (members r) /\ sign demo_claims = Some raw.
Proof. exists (fun _ => true), demo_sign, demo_request, "signed"%string. split; [reflexivity|]. split; [cbn; tauto|reflexivity]. Qed.
@@ C111_token_as_possession_refuted
Example C111_token_as_possession_refuted_met :
  jose_works self_ext self_dec public self_sign /\
  access_token_generate all_checks (Some (jwt_serialize self_sign "at" false (Some (KKey srv_key)))) (Some self_token) 1002 = Some "token"%string /\
  x_parse_pop self_ext "token" = true /\ (forall x, In x (list_ascii_of_string "attestation") -> x <> "~"%char) /\
  runs (validate_attestation self_ext "attestation")
    [(CNow, ATime (1005 * second)); (CNow, ATime (1005 * second)); (CClientGet "attester", AClient (SOk attester))] (Done (Some (Some (public srv_key)))) /\
  t_meta self_token = Some self_meta /\ (unix (1005 * second) <= m_expires_at self_meta)%N /\ (m_not_before self_meta <= unix (1005 * second))%N.
Proof.
  split; [apply self_works|]. split; [vm_compute; reflexivity|]. split; [reflexivity|].
  split; [cbn; intros x H; repeat (destruct H as [<-|H]; [discriminate|]); destruct H|].
  split; [steps|]. split; [reflexivity|]. split; vm_compute; discriminate.
Qed.
Example C111_token_as_possession_refuted_met2 : forall s j, self_dec s = Some j ->
  x_payload self_ext KPop s = Some (mkClaims (jc_iss j) "" (jc_aud j) (jc_jti j) (jc_exp j) (jc_nbf j) (jc_iat j) None "" "" None).
Proof. exact self_pop. Qed.
@@ C111_token_as_assertion_refuted
Example C111_token_as_assertion_refuted_met :
  jose_works self_ext self_dec public self_sign /\
  access_token_generate all_checks (Some (jwt_serialize self_sign "at" false (Some (KKey srv_key)))) (Some self_token) 1002 = Some "token"%string /\
  x_parse_jose self_ext "token" = true /\ t_meta self_token = Some self_meta /\ m_subject self_meta = m_issuer self_meta /\
  (unix (1005 * second) <= m_expires_at self_meta)%N /\ x_jwks self_ext (cl_jwks as_client) = Some [public srv_key] /\
  validate_signature self_ext [public srv_key] "token" = true /\
  (forall s j, self_dec s = Some j ->
     x_payload self_ext KAssertion s = Some (mkClaims (jc_iss j) (jc_sub j) (jc_aud j) (jc_jti j) (jc_exp j) (jc_nbf j) (jc_iat j) None "" "" None)).
Proof.
  split; [apply self_works|]. split; [vm_compute; reflexivity|]. split; [reflexivity|]. split; [reflexivity|]. split; [reflexivity|].
  split; [vm_compute; discriminate|]. split; [reflexivity|]. split; [vm_compute; reflexivity|exact self_assertion].
Qed.
@@ C112_signed_objects
Example C112_signed_objects_met : libraries_work plain_libs plain_readers /\
  exists raw, serialize plain_libs (FCwt (Some "ES256"%string)) BAccessToken (Some (KKey own_key)) (Some "claims"%string) = Done (Some raw).
Proof. split; [apply plain_work|]. eexists. reflexivity. Qed.
@@ C112_purpose_told
Example C112_purpose_told_met : libraries_work plain_libs plain_readers /\ same_format (FCwt None) (FCwt (Some "ES256"%string)) /\
  exists raw, serialize plain_libs FPaseto BJarm (Some (KKey own_key)) (Some "claims"%string) = Done (Some raw).
Proof. split; [apply plain_work|]. split; [exact I|]. eexists. reflexivity. Qed.
@@ C112_signs
Example C112_signs_met : k_id own_key <> ""%string /\
  (exists raw, lib_jose plain_libs (written_type FJwt BDpop) own_key true "claims"%string = Some raw) /\
  lib_public plain_libs own_key = false /\ lib_cose_key plain_libs (Some "ES256"%string) own_key = true /\ lib_ed25519 plain_libs own_key = true.
Proof. split; [discriminate|]. split; [eexists; reflexivity|]. repeat split. Qed.
@@ C112_crash_exactly_partial
Example C112_crash_exactly_partial_met :
  serialize plain_libs (FCwt None) BAccessToken (Some (KKey own_key)) (Some "claims"%string) = Crashed.
Proof. reflexivity. Qed.
@@ C112_no_provider_refuted
Example C112_no_provider_refuted_met :
  serialize plain_libs (FCwt (Some "ES256"%string)) BAccessToken None (Some "claims"%string) = Crashed.
Proof. reflexivity. Qed.
@@ C112_identifier_refuted
Example C112_identifier_refuted_met : libraries_work plain_libs plain_readers /\
  (forall kid typ a p s, lib_cose_write plain_libs kid typ a p s <> None) /\
  exists raw, serialize plain_libs (FCwt (Some "ES256"%string)) BAccessToken (Some (KKey own_key)) (Some "claims"%string) = Done (Some raw).
Proof. split; [apply plain_work|]. split; [discriminate|]. eexists. reflexivity. Qed.
@@ C112_jwt_type_refuted
Example C112_jwt_type_refuted_met : libraries_work plain_libs plain_readers /\
  exists raw o, serialize plain_libs FJwt BDpop (Some (KKey own_key)) (Some "claims"%string) = Done (Some raw) /\ opens plain_readers FJwt raw = Some o.
Proof. split; [apply plain_work|]. do 2 eexists. split; reflexivity. Qed.

@@ C113_kept
Example C113_kept_met : leave_alone clients two_registrations /\ never_drawn "public-client"%string two_registrations /\
  reg_get clients "public-client"%string = Some (builtin 3).
Proof. split; [apply two_alone|]. split; [apply other_never|]. reflexivity. Qed.
@@ C113_registered
Example C113_registered_met : exists st', reg_register (reg_after clients two_registrations) (Some 9) "dddddddddddddddd"%string = Done (st', "dddddddddddddddd"%string).
Proof. eexists. reflexivity. Qed.
@@ C113_only_registered
Example C113_only_registered_met : reg_get (reg_after clients two_registrations) "aaaaaaaaaaaaaaaa"%string = Some (with_id (newcomer "one"%string) "aaaaaaaaaaaaaaaa"%string).
Proof. reflexivity. Qed.
@@ C113_own_identifiers
Example C113_own_identifiers_met : own_identifiers clients /\ leave_alone clients two_registrations /\
  reg_get (reg_after clients two_registrations) "bbbbbbbbbbbbbbbb"%string <> None.
Proof. split; [apply clients_own|]. split; [apply two_alone|]. discriminate. Qed.
@@ C113_servers_registry
Example C113_servers_registry_met : leave_alone clients two_registrations /\
  w_clients (init_world 0 (reg_get (reg_after clients two_registrations))) = reg_get (reg_after clients two_registrations).
Proof. split; [apply two_alone|]. reflexivity. Qed.
@@ C113_by_name
Example C113_by_name_met : an_order clients names_front.
Proof. apply order_ok. left. reflexivity. Qed.
@@ C113_one_name
Example C113_one_name_met : forall fold, an_order names_some ["public-client"%string] /\ distinct_names fold names_some /\
  reg_get names_some "public-client"%string <> None.
Proof. intros fold. split; [apply some_order|]. split; [apply some_distinct|]. discriminate. Qed.

@@ C114_pushed_flow
Example C114_pushed_flow_met : exists S w xs hh0 hhp hh1 hh2 hh4 hh5 p rp th uri k q user c sub ar ar0 resp i r cnf access expires type refresh scope j rj cj oj,
  registry_ok w /\ blank w /\ hno_faults xs /\ web_no_reuse (sv_ext S) (http_history S w xs) /\
  http_history S w xs = (hh0 ++ hhp ++ hh1 ++ hh2 ++ (hh4 ++ hh5))%list /\
  (time_in (hhp ++ hh1) <= 60 * second)%N /\ (time_in (hh1 ++ hh2) <= 60 * second)%N /\
  sv_issuer S <> ""%string /\ x_request_uri (sv_ext S) (sv_issuer S) = true /\ responses_signed S /\
  In (HvStart p EPar rp) hhp /\ In (HvDone p (Done (HPushed (sv_issuer S) uri 60))) hhp /\ hq_method rp = "POST"%string /\
  comes_from S w (hh0 ++ hhp)%list p rp c /\ has_proof S w (hh0 ++ hhp)%list p rp th /\
  carries S c rp ar /\ ar_request_uri ar = None /\ ar_client_id ar = cl_id c /\ w_clients w (cl_id c) = Some c /\
  SpecLive.well_formed (sv_ext S) ar /\ SpecLive.permitted (sv_ext S) c ar /\ asks (sv_ext S) (ar_scope ar) "openid" /\
  web_codes_work (http_history S w xs) p /\
  x_uri_valid (sv_ext S) uri = true /\
  (forall k' iss' uri' s a, In (HvCall k' (CReqReg iss' uri' s) a) (http_history S w xs) ->
     req_key (sv_ext S) iss' uri' = req_key (sv_ext S) (sv_issuer S) uri -> k' = p) /\
  (forall j r' uri', In (HvStart j EAuthorize r') (http_history S w xs) -> sends_request_uri S r' uri' ->
     req_key (sv_ext S) (sv_issuer S) uri' = req_key (sv_ext S) (sv_issuer S) uri -> j = k) /\
  In (HvStart k EAuthorize q) hh1 /\ In (HvDone k (Done resp)) hh1 /\
  hq_method q = "GET"%string /\ user_logged_in q user /\ query_get q "client_id" = cl_id c /\
  subject_for (sv_ext S) (sv_salt S) c user sub /\ sub <> ""%string /\
  carries S c q ar0 /\ ar_request_uri ar0 = Some uri /\ web_codes_work (http_history S w xs) k /\
  sends_back S resp (ar_redirect_uri ar) (form_value r "code") (ar_state ar) (ar_client_id ar) /\
  In (HvStart i EToken r) hh2 /\ In (HvDone i (Done (HToken access expires type refresh scope))) hh2 /\
  form_value r "grant_type" = "authorization_code"%string /\ form_value r "redirect_uri" = ar_redirect_uri ar /\
  (43 <= String.length (form_value r "code_verifier") <= 128)%nat /\
  b64url (x_sha256 (sv_ext S) (form_value r "code_verifier")) = ar_code_challenge ar /\
  comes_from S w (hh0 ++ hhp ++ hh1 ++ hh2)%list i r c /\ holds S w (hh0 ++ hhp ++ hh1 ++ hh2)%list i r c cnf /\
  form_value r "code" <> ""%string /\ (rune_count (form_value r "code") <= 1024)%nat /\
  web_generators_work (http_history S w xs) i /\
  (forall k' iss' code' s a', In (HvCall k' (CSessReg iss' code' s) a') (http_history S w xs) ->
     sess_key (sv_ext S) iss' code' = sess_key (sv_ext S) (sv_issuer S) (form_value r "code") -> k' = k) /\
  (forall j r' code', In (HvStart j EToken r') (http_history S w xs) -> sends_code r' code' ->
     sess_key (sv_ext S) (sv_issuer S) code' = sess_key (sv_ext S) (sv_issuer S) (form_value r "code") -> j = i) /\
  In (HvStart j EIntrospect rj) hh5 /\ In (HvDone j oj) hh5 /\ form_value rj "token" = access /\
  comes_from S w (http_history S w xs) j rj cj /\ w_clients w (cl_id cj) = Some cj /\
  (second <= time_in hh4)%N /\ (time_in (hh2 ++ (hh4 ++ hh5)) <= 3600 * second)%N /\
  (forall t, web_stored_as (sv_ext S) (http_history S w xs) (sv_issuer S) access t -> ~ web_revoked_in (http_history S w xs) (t_id t)).
Proof.
  exists flow_server, (web_world true), x_pushed, [], (firstn 11 h_pushed), (firstn 9 (skipn 11 h_pushed)), (firstn 20 (skipn 20 h_pushed)),
    (firstn 1 (skipn 40 h_pushed)), (skipn 41 h_pushed).
  exists 0%nat, par_r, "thumb:instance-key"%string, "urn:solid:1"%string, 1%nat, (authorize_r "app" "req-by-uri"), "hello"%string, (happ true).
  do 4 eexists. exists 2%nat, (redeem_r dpop1). do 6 eexists. exists 3%nat, ask_r, (happ true). eexists.
  split; [apply registry_web|]. split; [apply blank_web|]. split; [by_faults|]. split; [by_reuse|].
  split; [vm_compute; reflexivity|]. split; [vm_compute; discriminate|]. split; [vm_compute; discriminate|].
  split; [discriminate|]. split; [reflexivity|]. split; [intros cl; eexists; reflexivity|].
  split; [by_start 0%nat|]. split; [by_nth 10%nat|]. split; [reflexivity|].
  split; [apply (from_app true); [reflexivity|reflexivity|left; split; [reflexivity|vm_compute; discriminate]]|].
  split. { exists "jti-6"%string, 1000%N, EPar, []. eexists. split; [exact (proof_good "proof-par" "jti-6" "/par" (or_intror eq_refl))|].
    split; [reflexivity|]. split; [by_start 0%nat|]. split; [vm_compute; discriminate|]. split; [vm_compute; discriminate|]. split; [reflexivity|].
    intros j a H. apply Nat.eqb_eq. exact (proofs_demo (fun j _ => Nat.eqb j 0) ([] ++ firstn 11 h_pushed) ltac:(vm_compute; reflexivity) _ _ _ H). }
  split; [split; [discriminate|]; split; [apply app_signed; reflexivity|vm_compute; reflexivity]|].
  split; [reflexivity|]. split; [reflexivity|]. split; [reflexivity|]. split; [apply areq_good; exact true|]. split; [apply areq_good|].
  split; [apply has_iff; reflexivity|]. split; [apply codes_demo; vm_compute; reflexivity|]. split; [reflexivity|].
  split. { intros k' iss' uri' s a H _. apply Nat.eqb_eq.
    exact (requests_demo (fun j _ _ _ => Nat.eqb j 0) h_pushed ltac:(vm_compute; reflexivity) _ _ _ _ _ H). }
  split. { intros j r' uri' H _ _. apply Nat.eqb_eq.
    exact (starts_demo (fun j e _ => match e with EAuthorize => Nat.eqb j 1 | _ => true end) h_pushed ltac:(vm_compute; reflexivity) _ _ _ H). }
  split; [by_start 0%nat|]. split; [by_nth 8%nat|]. split; [reflexivity|]. split; [split; reflexivity|]. split; [reflexivity|].
  split; [vm_compute; reflexivity|]. split; [discriminate|].
  split; [split; [discriminate|]; split; [apply app_signed; reflexivity|vm_compute; reflexivity]|].
  split; [reflexivity|]. split; [apply codes_demo; vm_compute; reflexivity|].
  split; [split; [reflexivity|]; exists (1060 * second)%N; reflexivity|].
  split; [by_start 0%nat|]. split; [by_nth 19%nat|]. split; [reflexivity|].
  split; [reflexivity|]. split; [vm_compute; repeat constructor|]. split; [vm_compute; reflexivity|].
  split; [apply (from_app true); [reflexivity|reflexivity|left; split; [reflexivity|vm_compute; discriminate]]|].
  split. { right. split; [reflexivity|]. exists "thumb:instance-key"%string. split; [|reflexivity].
    exists "jti-3"%string, 1000%N, EToken, []. eexists. split; [exact (proof_good "proof" "jti-3" "/token" (or_introl eq_refl))|].
    split; [reflexivity|]. split; [by_start 20%nat|]. split; [vm_compute; discriminate|]. split; [vm_compute; discriminate|]. split; [reflexivity|].
    apply (proofs_of_id "jti-3"). vm_compute. reflexivity. }
  split; [discriminate|]. split; [apply Nat.leb_le; vm_compute; reflexivity|].
  split; [apply generators_demo; vm_compute; reflexivity|].
  split. { intros k' iss' code' s a' H _. apply Nat.eqb_eq.
    exact (sessions_demo (fun j _ _ _ => Nat.eqb j 1) h_pushed ltac:(vm_compute; reflexivity) _ _ _ _ _ H). }
  split. { intros j r' code' H _ _. apply Nat.eqb_eq.
    exact (starts_demo (fun j e _ => match e with EToken => Nat.eqb j 2 | _ => true end) h_pushed ltac:(vm_compute; reflexivity) _ _ _ H). }
  split; [by_start 0%nat|]. split; [by_nth 6%nat|]. split; [reflexivity|].
  split; [apply (from_app true); [reflexivity|reflexivity|left; split; [reflexivity|vm_compute; discriminate]]|].
  split; [reflexivity|]. split; [vm_compute; discriminate|]. split; [vm_compute; discriminate|].
  intros t _. apply revokes_demo. vm_compute. reflexivity.
Qed.
@@ C115_form_round_trip
Example C115_form_round_trip_met : exists vs, NoDup (map fst vs) /\ given_values vs "a b" = ["x&y=z"; "100%"]%string /\
  values_encode vs = "%23=&a+b=x%26y%3Dz&a+b=100%25"%string.
Proof.
  exists [("a b", ["x&y=z"; "100%"]); ("#", [""])]%string.
  split; [constructor; [intros [H|[]]; discriminate|constructor; [intros []|constructor]]|]. split; [reflexivity|]. vm_compute. reflexivity.
Qed.
@@ C115_posted_form
Example C115_posted_form_met : exists params : list (string * string), NoDup (map fst params) /\ form_body params "token" = ["at 1+2"]%string.
Proof.
  exists [("client_assertion", "a.b.c"); ("token", "at 1+2")]%string.
  split; [constructor; [intros [H|[]]; discriminate|constructor; [intros []|constructor]]|]. reflexivity.
Qed.
@@ C115_response_read
Example C115_response_read_met : exists S w xs i r resp text url,
  writes_base text /\ responded (http_history S w xs) i EAuthorize r resp /\ location text resp = Some url /\
  url = "https://app.example/cb?response=jarm"%string.
Proof.
  exists tenant_server, tenant_world, tenant_steps, 0%nat, (authorize_r "app" "req-app"), (HRedirectQuery tenant_uri "jarm"), keeps. eexists.
  split; [exact keeps_base|]. split; [split; [left; reflexivity|apply nth_error_In with (n := 6%nat); vm_compute; reflexivity]|].
  split; [reflexivity|]. vm_compute. reflexivity.
Qed.
@@ C115_code_delivered
Example C115_code_delivered_met : exists S w xs i r user c sub ar o text,
  writes_base text /\
  hno_faults xs /\ In (HvStart i EAuthorize r) (http_history S w xs) /\ In (HvDone i o) (http_history S w xs) /\
  hq_method r = "GET"%string /\ user_logged_in r user /\ w_clients w (query_get r "client_id") = Some c /\
  subject_for (sv_ext S) (sv_salt S) c user sub /\ sub <> ""%string /\
  carries S c r ar /\ ar_request_uri ar = None /\ ar_client_id ar = query_get r "client_id" /\
  SpecLive.well_formed (sv_ext S) ar /\ SpecLive.permitted (sv_ext S) c ar /\
  sv_issuer S <> ""%string /\ web_codes_work (http_history S w xs) i /\ responses_signed S.
Proof.
  exists web_server, (web_world true), x_http_code, 0%nat, (authorize_r "app" "req-app"), "hello"%string, (happ true). do 3 eexists.
  exists keeps. split; [exact keeps_base|].
  split; [by_faults|]. split; [by_start 0%nat|]. split; [by_nth 6%nat|]. split; [reflexivity|]. split; [split; reflexivity|].
  split; [reflexivity|]. split; [vm_compute; reflexivity|]. split; [discriminate|].
  split; [split; [discriminate|]; split; [apply app_signed; reflexivity|vm_compute; reflexivity]|].
  split; [reflexivity|]. split; [reflexivity|]. split; [apply areq_good; exact true|]. split; [apply areq_good|]. split; [discriminate|].
  split; [apply codes_demo; vm_compute; reflexivity|]. intros cl. eexists. reflexivity.
Qed.
@@ C115_fragment
Example C115_fragment_met : exists text uri raw url, writes_base text /\ jwt_characters raw /\
  ~ In "#"%char (list_ascii_of_string (snd (str_cut "?" uri))) /\ location text (HRedirectFragment uri raw) = Some url /\
  url = "https://app.example/cb?tenant=7#response=eyJ.e30.s-_g"%string.
Proof.
  exists keeps, tenant_uri, "eyJ.e30.s-_g"%string. eexists. split; [exact keeps_base|].
  split; [intros c H; cbn in H; repeat destruct H as [<-|H]; try reflexivity; destruct H|].
  split; [cbn; intros H; repeat destruct H as [H|H]; try discriminate; destruct H|].
  split; [reflexivity|]. vm_compute. reflexivity.
Qed.
@@ C116_every_response
Example C116_every_response_met : exists S w xs i e r resp, responded (http_history S w xs) i e r resp /\ status_of resp = 302%N.
Proof. do 7 eexists. split; [exact tenant_answer|reflexivity]. Qed.
@@ C116_user_pages
Example C116_user_pages_met : exists S w xs describe text i e r hd resp user,
  delivered S describe text (http_history S w xs) i e r hd resp /\ for_users e /\ user_logged_in r user.
Proof.
  destruct (with_headers _ _ _ _ _ _ _ tenant_answer) as (hd & D). do 8 eexists. exists hd. eexists. exists "hello"%string.
  split; [exact D|]. split; [left; reflexivity|split; reflexivity].
Qed.
@@ C116_errors
Example C116_errors_met : exists S w xs describe text i e r hd resp,
  delivered S describe text (http_history S w xs) i e r hd resp /\ status_of resp = 401%N.
Proof.
  destruct (with_headers _ _ _ _ _ _ _ wrong_answer) as (hd & D). do 8 eexists. exists hd. eexists. split; [exact D|reflexivity].
Qed.
@@ C116_location
Example C116_location_met : exists S w xs describe text i e r hd resp url,
  delivered S describe text (http_history S w xs) i e r hd resp /\ location text resp = Some url.
Proof.
  destruct (with_headers _ _ _ _ _ _ _ tenant_answer) as (hd & D). do 8 eexists. exists hd. do 2 eexists. split; [exact D|reflexivity].
Qed.
@@ C116_token_headers
Example C116_token_headers_met : exists S w xs describe text i e r hd resp,
  delivered S describe text (http_history S w xs) i e r hd resp /\ carries_token resp.
Proof.
  destruct code_answer as (at_ & n & ty & rt & sc & R).
  destruct (with_headers _ _ _ _ _ _ _ R) as (hd & D). do 8 eexists. exists hd. eexists. split; [exact D|exact I].
Qed.
@@ C116_login_page_refuted
Example C116_login_page_refuted_met : exists S w xs describe text i e r hd resp,
  delivered S describe text (http_history S w xs) i e r hd resp /\ for_users e /\ forall user, ~ user_logged_in r user.
Proof.
  destruct (with_headers _ _ _ _ _ _ _ wrong_answer) as (hd & D). do 8 eexists. exists hd. eexists. split; [exact D|].
  split; [left; reflexivity|]. intros user [H _]. discriminate.
Qed.
@@ C117_no_reuse
Example C117_no_reuse_met : exists C sa sr source E w xs,
  let h := history E w xs in
  primitives_ok C /\ package_generators C sa sr source h /\ unique_uuids source (List.length h) /\
  unique_ids h /\ slots_collision_free E h /\
  List.length (filter (fun e => match e with EvCall _ (CTokCreate _ _) (AUnit (SOk _)) => true | _ => false end) h) = 4%nat.
Proof.
  exists toy, access_secret, refresh_secret, toy_source, demo_ext, w0, x_mint. split; [exact toy_ok|]. split; [exact mint_gens|].
  split; [apply toy_unique; apply Nat.leb_le; vm_compute; reflexivity|]. split; [exact mint_ids|]. split; [exact mint_collisions|vm_compute; reflexivity].
Qed.
@@ C117_web_no_reuse
Example C117_web_no_reuse_met : exists C sa sr source S w xs,
  let hh := http_history S w xs in
  primitives_ok C /\ web_package_generators C sa sr source hh /\ unique_uuids source (List.length hh) /\
  web_unique_ids hh /\ web_slots_collision_free (sv_ext S) hh /\
  List.length (filter (fun e => match e with HvCall _ (CTokCreate _ _) (AUnit (SOk _)) => true | _ => false end) hh) = 3%nat.
Proof.
  exists toy, access_secret, refresh_secret, toy_source, web_server, (web_world true), x_web_mint. split; [exact toy_ok|].
  split; [exact web_mint_gens|]. split; [apply toy_unique; apply Nat.leb_le; vm_compute; reflexivity|]. split; [exact web_mint_ids|].
  split; [exact web_mint_collisions|vm_compute; reflexivity].
Qed.
@@ C117_kind
Example C117_kind_met : exists C secret t uuid v,
  primitives_ok C /\ String.length uuid = 16%nat /\ made C secret t uuid v /\ t_type t = TtAccess.
Proof.
  exists toy, access_secret, (mkToken "" TtAccess "" None TsActive "" None), (toy_source 7), (A 7).
  split; [exact toy_ok|]. split; [reflexivity|]. split; [apply a_made; reflexivity|reflexivity].
Qed.
@@ C117_different
Example C117_different_met : exists C secret secret' t t' uuid uuid' v v',
  primitives_ok C /\ String.length uuid = 16%nat /\ String.length uuid' = 16%nat /\ t_type t = TtAccess /\ t_type t' = TtRefresh /\
  made C secret t uuid v /\ made C secret' t' uuid' v'.
Proof.
  exists toy, access_secret, refresh_secret, (mkToken "" TtAccess "" None TsActive "" None),
    (mkToken "" TtRefresh "" None TsActive "" None), (toy_source 7), (toy_source 7), (A 7), (R 7).
  split; [exact toy_ok|]. do 4 (split; [reflexivity|]). split; [apply a_made; reflexivity|apply r_made; reflexivity].
Qed.
@@ C117_total
Example C117_total_met : exists C generator t uuid nonce, primitives_ok C /\
  token_value C generator t uuid nonce <> None.
Proof.
  exists toy, (Some access_secret), (Some (mkToken "" TtAccess "" None TsActive "" None)), (Some (toy_source 7)), (Some toy_nonce).
  split; [exact toy_ok|]. vm_compute. discriminate.
Qed.
@@ C117_other_key
Example C117_other_key_met : exists C secret secret' t uuid v uuid',
  primitives_ok C /\ String.length uuid = 16%nat /\ t_type t = TtAccess /\ made C secret t uuid v /\
  uuid_extract C secret' v = Done (Some uuid').
Proof.
  exists toy, access_secret, refresh_secret, (mkToken "" TtAccess "" None TsActive "" None), (toy_source 7), (A 7), (toy_source 7).
  split; [exact toy_ok|]. split; [reflexivity|]. split; [reflexivity|]. split; [apply a_made; reflexivity|vm_compute; reflexivity].
Qed.
@@ C118_grant_types
Example C118_grant_types_met : exists S w xs i r, registry_ok w /\ blank w /\ got_tokens (http_history S w xs) i r.
Proof.
  exists web_server, (web_world true), x_http_code, 1%nat, (redeem_r dpop1).
  split; [apply registry_web|]. split; [apply blank_web|]. exact code_answer.
Qed.
@@ C118_exchange_refuted
Example C118_exchange_refuted_met : exists S w xs i r,
  responded (http_history S w xs) i EToken r (HError 400 (err invalid_grant)) /\
  form_value r "grant_type" = "urn:ietf:params:oauth:grant-type:token-exchange"%string.
Proof. do 5 eexists. split; [exact exchange_refused|reflexivity]. Qed.
@@ C118_dpop_refuted
Example C118_dpop_refuted_met : exists S w xs i r alg,
  parses_es384_only (sv_ext S) alg /\ responded (http_history S w xs) i EToken r (HError 400 (err invalid_dpop_proof)) /\
  hq_header r "DPoP" <> ""%string /\ In (alg (hq_header r "DPoP")) announced_dpop_algs.
Proof.
  do 5 eexists. exists demo_alg. split; [exact demo_es384|]. split; [exact es256_refused|].
  split; [discriminate|left; reflexivity].
Qed.
@@ C118_request_objects
Example C118_request_objects_met : exists S w xs i r resp alg,
  parses_es384_only (sv_ext S) alg /\ responded (http_history S w xs) i EAuthorize r resp /\ fulfilled resp.
Proof.
  destruct authorize_answer as (resp & H & Hok). do 6 eexists. exists demo_alg. split; [exact demo_es384|]. split; [exact H|exact Hok].
Qed.
@@ C118_challenge_methods
Example C118_challenge_methods_met : exists S w xs i iss code s a ar,
  In (HvCall i (CSessReg iss code s) a) (http_history S w xs) /\ as_request s = Some ar.
Proof.
  destruct authorize_stores as (iss & code & s & a & ar & H & Hq). do 4 eexists. exists iss, code, s, a, ar. split; [exact H|exact Hq].
Qed.
@@ C118_auth_methods
Example C118_auth_methods_met : exists S w xs i e r resp,
  for_clients e /\ responded (http_history S w xs) i e r resp /\ fulfilled resp.
Proof.
  destruct code_answer as (a & n & t & f & s & H). do 7 eexists. split; [|split; [exact H|exact I]]. exact I.
Qed.
@@ C118_subjects_refuted
Example C118_subjects_refuted_met : exists S w xs i e r c iss code s a,
  registry_ok w /\ blank w /\ w_clients w (query_get r "client_id") = Some c /\ ~ In (cl_subject_type c) announced_subject_types /\
  In (HvStart i e r) (http_history S w xs) /\ In (HvCall i (CSessReg iss code s) a) (http_history S w xs).
Proof.
  destruct evil_stores as (iss & code & s & a & H).
  exists web_server, (web_world true), x_http_evil, 0%nat, EAuthorize, (authorize_r "evil" "req-evil"), hevil, iss, code, s, a.
  split; [apply registry_web|]. split; [apply blank_web|]. split; [reflexivity|]. split; [intros [X|[]]; discriminate X|].
  split; [eapply nth_error_In with (n := 0%nat); vm_compute; reflexivity|exact H].
Qed.
@@ C119_sent_once
Example C119_sent_once_met : exists C sa sr source S w xs i v,
  let hh := http_history S w xs in
  primitives_ok C /\ web_package_generators C sa sr source hh /\ unique_uuids source (List.length hh) /\ sent_token hh i v.
Proof.
  exists toy, access_secret, refresh_secret, toy_source, web_server, (web_world true), x_web_mint, 1%nat, (R 23).
  split; [exact toy_ok|]. split; [exact web_mint_gens|]. split; [apply toy_unique; apply Nat.leb_le; vm_compute; reflexivity|].
  destruct redeem_sent as (r & a & e & t & f & s & H & _ & Hf). exists r, a, e, t, f, s.
  split; [exact H|]. split; [vm_compute; discriminate|right; symmetry; exact Hf].
Qed.
@@ C119_two_values
Example C119_two_values_met : exists C sa sr source S w xs i r access expires type refresh scope,
  let hh := http_history S w xs in
  primitives_ok C /\ web_package_generators C sa sr source hh /\ unique_uuids source (List.length hh) /\
  responded hh i EToken r (HToken access expires type refresh scope) /\ refresh <> ""%string.
Proof.
  destruct redeem_sent as (r & a & e & t & f & s & H & _ & Hf).
  exists toy, access_secret, refresh_secret, toy_source, web_server, (web_world true), x_web_mint, 1%nat, r, a, e, t, f, s.
  split; [exact toy_ok|]. split; [exact web_mint_gens|]. split; [apply toy_unique; apply Nat.leb_le; vm_compute; reflexivity|].
  split; [exact H|]. rewrite Hf. vm_compute. discriminate.
Qed.
@@ C119_own_token
Example C119_own_token_met : exists C sa sr source S w xs i v j iss t a,
  let hh := http_history S w xs in
  primitives_ok C /\ web_package_generators C sa sr source hh /\ unique_uuids source (List.length hh) /\
  sent_token hh i v /\ In (HvCall j (CTokCreate iss t) a) hh /\ t_value t = v.
Proof.
  destruct redeem_stored as (iss & t & a & Hc & Hv).
  exists toy, access_secret, refresh_secret, toy_source, web_server, (web_world true), x_web_mint, 1%nat, (R 23), 1%nat, iss, t, a.
  split; [exact toy_ok|]. split; [exact web_mint_gens|]. split; [apply toy_unique; apply Nat.leb_le; vm_compute; reflexivity|].
  split; [|split; [exact Hc|exact Hv]].
  destruct redeem_sent as (r & a' & e & ty & f & s & H & _ & Hf). exists r, a', e, ty, f, s.
  split; [exact H|]. split; [vm_compute; discriminate|right; symmetry; exact Hf].
Qed.
@@ C03_every_reader_refuted
w: demo_ext; w0; x_race; firstn 0 (history demo_ext w0 x_race); firstn 5 (skipn 0 (history demo_ext w0 x_race)); skipn 5 (skipn 0 (history demo_ext w0 x_race)); 0%nat; _; _; areq all_scope (Some "consent"%string); 2%nat; redeem webapp "code-1"; verifier; _
  all: lazymatch goal with |- forall l1 a l2, _ = app _ _ -> _ => idtac | |- forall k' iss' code' s a, _ => intros k' iss' code' s a Hin _; exact (race_once _ _ _ _ _ Hin) | |- _ => meet_live end.
  intros l1 a l2 Hh j iss' code' b Hin _. exact (no_deletion_before _ _ _ _ race_clear l1 a l2 Hh j iss' code' b Hin).
@@ C06_any_client_refuted
w: demo_ext; w0; x_steal; firstn 0 (history demo_ext w0 x_steal); firstn 5 (skipn 0 (history demo_ext w0 x_steal)); skipn 5 (skipn 0 (history demo_ext w0 x_steal)); 0%nat; _; _; areq all_scope (Some "consent"%string); 1%nat; redeem evil "code-1"; evil; verifier; _
  all: lazymatch goal with |- forall l1 a l2, _ = app _ _ -> _ => idtac | |- forall k' iss' code' s a, _ => intros k' iss' code' s a Hin _; exact (steal_once _ _ _ _ _ Hin) | |- _ => meet_live end.
  intros l1 a l2 Hh j iss' code' b Hin _. exact (no_deletion_before _ _ _ _ steal_clear l1 a l2 Hh j iss' code' b Hin).
@@ C27_listed_twice_refuted
w: demo_ext; w0; x_twice; firstn 0 (history demo_ext w0 x_twice); firstn 5 (skipn 0 (history demo_ext w0 x_twice)); skipn 5 (skipn 0 (history demo_ext w0 x_twice)); 0%nat; _; _; areq "openid offline_access offline_access" None; 1%nat; redeem webapp "code-1"; verifier; _
  all: lazymatch goal with |- forall l1 a l2, _ = app _ _ -> _ => idtac | |- forall k' iss' code' s a, _ => intros k' iss' code' s a Hin _; exact (twice_once _ _ _ _ _ Hin) | |- asks_twice _ _ _ => exists ["openid"%string], "offline_access"%string, (@nil string), "offline_access"%string, (@nil string); split; [vm_compute; reflexivity|split; vm_compute; reflexivity] | |- _ => meet_live end.
  intros l1 a l2 Hh j iss' code' b Hin _. exact (no_deletion_before _ _ _ _ twice_clear l1 a l2 Hh j iss' code' b Hin).
@@ C09_unrevoked_refuted
w: demo_ext; w0; x_refresh2; firstn 18 (history demo_ext w0 x_refresh2); skipn 18 (history demo_ext w0 x_refresh2); 1%nat; redeem webapp "code-1"; _; rt_demo; _; 3%nat; refreshreq webapp "rt-1"; webapp; _
  all: lazymatch goal with |- forall l1 a l2, _ = app _ _ -> _ => idtac | |- _ => meet_live end.
  exact (no_revocation_before _ _ _ _ _ refresh2_clear).
@@ C11_anyone_refuted
w: demo_ext; w0; x_revoke; firstn 18 (history demo_ext w0 x_revoke); skipn 18 (history demo_ext w0 x_revoke); _; 3%nat; mkValReq iss (Some evil) "at-1"; evil; _; _
  do 3 eexists. split; [eapply nth_error_In with (n := 12%nat); vm_compute; reflexivity|vm_compute; reflexivity].
@@ C13_any_scope_refuted
w: demo_ext; w0; x_widen; 2%nat; exchangereq webapp "at-1" (Some "admin"); _; _
@@ C33_until_expiry_refuted
w: other_ext; w0; x_assertions; 0%nat; 1%nat; _; _; _; _; _
@@ C37_every_checker_refuted
w: demo_ext; w0; x_dpop_race; 0%nat; 1%nat; _; _; "proof"%string; _; _; _; _; _
  - apply dpop_times. vm_compute. reflexivity.
  - intros a Hin. refine (dpop_new _ _ _ _ _ Hin). vm_compute. reflexivity.
@@ C16_every_poll_refuted
w: demo_ext; w0s; x_poll2; firstn 0 (history demo_ext w0s x_poll2); firstn 12 (skipn 0 (history demo_ext w0s x_poll2)); skipn 12 (skipn 0 (history demo_ext w0s x_poll2)); 0%nat; _; _; 1%nat; _; _; pollreq webapp "device-1"; webapp; "device-1"%string; 2%nat :: 3%nat :: nil
  - constructor; [intros [X|[]]; discriminate X|]. constructor; [intros []|constructor].
  - intros i [<-|[<-|[]]]; (split; [meet1|]; split; [eexists; meet1|meet1]).
  - eexists. split; reflexivity.
  - eexists. split; [right; right; right; left; reflexivity|reflexivity].

@@ C120_no_secret
Example C120_no_secret_met : exists sound doc k ks docs d,
  started sound doc k ks /\ jwks_handler (Some (Some ks)) = KeysSent docs /\ In d docs /\ ec_d k <> None.
Proof.
  exists knows, settings_doc, kk_key, [ec_public kk_key]. do 2 eexists.
  split; [exact kk_started|]. split; [reflexivity|]. split; [left; reflexivity|]. discriminate.
Qed.

@@ C120_secret_unseen
Example C120_secret_unseen_met : exists sound doc doc' k k' ks ks',
  without "d" doc = without "d" doc' /\ started sound doc k ks /\ started sound doc' k' ks' /\ ec_d k <> ec_d k'.
Proof.
  exists knows, settings_doc, other_settings, kk_key. do 3 eexists.
  split; [vm_compute; reflexivity|]. split; [exact kk_started|]. split; [split; vm_compute; reflexivity|]. vm_compute. discriminate.
Qed.

@@ C120_served_key
Example C120_served_key_met : exists sound doc k ks, point_stays sound /\ started sound doc k ks.
Proof. exists knows, settings_doc, kk_key, [ec_public kk_key]. split; [exact kk_stays|exact kk_started]. Qed.

@@ C120_always_asked
Example C120_always_asked_met : exists sound of_ec doc k ks cs r,
  point_stays sound /\ started sound doc k ks /\ answered_by sound of_ec ks cs /\ In r (run_keys fresh_client cs) /\
  List.length (run_keys fresh_client cs) = 2%nat.
Proof.
  exists knows, kk_of, settings_doc, kk_key, [ec_public kk_key], kk_calls. eexists.
  split; [exact kk_stays|]. split; [exact kk_started|]. split; [exact kk_answered|]. split; [right; left; reflexivity|reflexivity].
Qed.

@@ C120_verifies
Example C120_verifies_met : exists E (dec : string -> option string) pub sign sound of_ec doc k ks cs keys exp asked typ c raw,
  jose_works E dec pub sign /\ keeps of_ec pub /\ point_stays sound /\
  started sound doc k ks /\ ec_use k <> "enc"%string /\
  answered_by sound of_ec ks cs /\ In (KeysOk keys exp, asked) (run_keys fresh_client cs) /\
  jwt_serialize sign typ false (Some (KKey (of_ec k))) c = Some raw.
Proof.
  exists kk_ext, kk_dec, kk_pub, kk_sign, knows, kk_of, settings_doc, kk_key, [ec_public kk_key], kk_calls. do 3 eexists.
  exists type_metadata, "metadata"%string, "signed"%string.
  split; [exact kk_works|]. split; [exact kk_keeps|]. split; [exact kk_stays|]. split; [exact kk_started|].
  split; [discriminate|]. split; [exact kk_answered|]. split; [right; left; reflexivity|]. vm_compute. reflexivity.
Qed.

@@ C120_settings
Example C120_settings_met : exists sound : string -> string -> string -> option string -> bool,
  sound "P-384"%string (text_or "x" settings_doc) (text_or "y" settings_doc) (text_at "d" settings_doc) = true /\
  sound "P-256"%string (text_or "x" settings_doc) (text_or "y" settings_doc) (text_at "d" settings_doc) = false.
Proof. exists knows. split; reflexivity. Qed.

@@ C120_failure
Example C120_failure_met : exists sound of_ec st c,
  pk_answer c = read_response sound of_ec (jwks_handler None) /\ cs_jwks st <> None.
Proof. exists knows, kk_of, (mkClientState (Some [kk_of kk_key]) 0), (mkKeysCall 1000 JwksFails 1000). split; [reflexivity|discriminate]. Qed.

@@ C120_nil_set_refuted
Example C120_nil_set_refuted_met : exists sound of_ec c, pk_answer c = read_response sound of_ec (jwks_handler (Some None)).
Proof. exists knows, kk_of, (mkKeysCall 1000 (JwksDoc None 0) 1000). reflexivity. Qed.

@@ C120_any_provider_refuted
Example C120_any_provider_refuted_met : exists k d, ec_d k = Some d.
Proof. exists kk_key. eexists. vm_compute. reflexivity. Qed.

@@ C121_profiles
Example C121_profiles_met : exists p, strict_profile "device" = Some p.
Proof. eexists. reflexivity. Qed.

@@ C121_grants
Example C121_grants_met : exists E w xs i iss t a name m c p,
  registry_ok w /\ names_apart E /\ In (EvCall i (CTokCreate iss t) a) (history E w xs) /\
  t_meta t = Some m /\ w_clients w (m_client_id m) = Some c /\
  strictly_registered name c /\ strict_profile name = Some p.
Proof.
  exists demo_ext, (strict_world "web"), x_code, 1%nat, iss. do 2 eexists. exists "web"%string. eexists. exists (strict_client "web"). eexists.
  split; [apply strict_registry|]. split; [exact demo_apart|].
  split; [eapply nth_error_In with (n := 12%nat); vm_compute; reflexivity|].
  split; [reflexivity|]. split; [reflexivity|]. split; [eexists; repeat split; reflexivity|reflexivity].
Qed.

@@ C121_codes
Example C121_codes_met : exists E w xs i q res name c,
  names_apart E /\ authorize_ok_at (history E w xs) i q res /\
  w_clients w (zr_client_id res) = Some c /\ strictly_registered name c.
Proof.
  exists demo_ext, (strict_world "web"), x_code, 0%nat, (mkAuthzReq iss "alice" (Some (areq all_scope (Some "consent"%string)))).
  eexists. exists "web"%string, (strict_client "web").
  split; [exact demo_apart|]. split; [demo_authz|]. split; [reflexivity|]. eexists; repeat split; reflexivity.
Qed.

@@ C121_no_refresh
Example C121_no_refresh_met : exists E w xs i req res name c,
  registry_ok w /\ names_apart E /\ token_ok (history E w xs) i req res /\ client_of w req c /\
  strictly_registered name c /\ tq_grant_type req = "refresh_token"%string.
Proof.
  exists demo_ext, (strict_world "native"), x_refresh, 2%nat, (refreshreq webapp "rt-1"). eexists. exists "native"%string, (strict_client "native").
  split; [apply strict_registry_native|]. split; [exact demo_apart|]. split; [demo_ok|].
  split; [exists webapp; split; reflexivity|]. split; [eexists; repeat split; reflexivity|reflexivity].
Qed.
@@ C121_purposes
Example C121_purposes_met : exists p, strict_profile "native" = Some p.
Proof. eexists. reflexivity. Qed.
