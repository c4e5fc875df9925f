{"claims": [
{"property": "C01", "status": "proved", "theorems": ["C01_client_credentials_gate"], "note": ""},
{"property": "C02", "status": "proved", "theorems": ["C02_code_redeemed_once", "C60_deleted_code_unusable"], "note": ""},
{"property": "C03", "status": "partial", "theorems": ["C03_concurrent_double_redemption_refuted", "C03_code_redeemed_once_partial", "C03_every_reader_refuted", "C60_deleted_code_unusable"], "note": "The claim is false of the code: two interleaved redemptions of one code both succeed (C03_concurrent_double_redemption_refuted). Proved instead: whoever redeems successfully read the session before the first deletion of that code, or the code was handed out again. It is not one interleaving: every redemption within a minute that looks the code up before its first deletion succeeds, however many there are (C03_every_reader_refuted)."},
{"property": "C04", "status": "proved", "theorems": ["C04_pkce_and_redirect_gate"], "note": ""},
{"property": "C05", "status": "proved", "theorems": ["C05_tokens_as_authorized"], "note": ""},
{"property": "C06", "status": "partial", "theorems": ["C06_code_bound_to_client_refuted", "C06_code_bound_to_client_partial", "C06_any_client_refuted"], "note": "False of the code: a client with the same registered redirect URI can redeem another client's code (refuted by a concrete run, and, for all histories: any such client that has the code verifier and looks the code up in time gets a token for that user). Proved when no two clients share a redirect URI."},
{"property": "C07", "status": "proved", "theorems": ["C07_codes_expire", "C07_codes_retrievable", "C07_pushed_requests_expire", "C07_pushed_requests_retrievable"], "note": ""},
{"property": "C08", "status": "proved", "theorems": ["C08_refresh_gate"], "note": ""},
{"property": "C09", "status": "partial", "theorems": ["C09_refresh_rotation_partial", "C09_refresh_reuse_refuted", "C09_unrevoked_refuted"], "note": "False of the code: a refresh token far from expiry stays usable after a refresh (refuted by a concrete run). Proved for refreshes that return a new refresh token. For all histories: a live refresh token works as long as it has not been revoked, however often it was used before (C09_unrevoked_refuted)."},
{"property": "C10", "status": "proved", "theorems": ["C10_revocation_permanent"], "note": ""},
{"property": "C11", "status": "partial", "theorems": ["C11_owner_revokes_refuted", "C11_revokes_what_is_presented_partial", "C11_anyone_refuted"], "note": "False of the code: revocation does not look at the token's owner (refuted by a concrete run). Proved: revocation only ever revokes the token stored under the presented value. For all histories: any registered client that presents the value of a stored token revokes it (C11_anyone_refuted)."},
{"property": "C12", "status": "proved", "theorems": ["C12_exchange_gate"], "note": ""},
{"property": "C13", "status": "partial", "theorems": ["C13_exchange_scope_refuted", "C13_exchange_scope_partial", "C13_any_scope_refuted"], "note": "False of the code: the requested scope is copied into the new token (refuted by a concrete run). Proved when the request names no scope: the scope is that of the subject token. For all histories: whatever scope is asked for is granted (C13_any_scope_refuted)."},
{"property": "C14", "status": "proved", "theorems": ["C14_device_needs_approval"], "note": ""},
{"property": "C15", "status": "partial", "theorems": ["C15_in_memory_never_refuted", "C15_device_flow_refuted", "C15_approved_device_gets_tokens_partial"], "note": "False of the code as shipped: with the in-memory device store no approval ever succeeds, because the store never sets the expiry (C15_in_memory_never_refuted, for all histories). Proved for a store that does set expiry and status: a poll after an approval gets tokens. That an approval itself succeeds is C85."},
{"property": "C16", "status": "partial", "theorems": ["C16_device_code_once_refuted", "C16_every_poll_refuted"], "note": "False of the code: nothing deletes the device-code index, so a second poll gets a second pair of tokens (refuted by a concrete run). For all histories and any number of polls within the lifetime: as many different tokens (C16_every_poll_refuted)."},
{"property": "C17", "status": "proved", "theorems": ["C17_introspection"], "note": ""},
{"property": "C18", "status": "proved", "theorems": ["C18_failure_has_no_token"], "note": ""},
{"property": "C19", "status": "partial", "theorems": ["C19_missing_error_refuted", "C19_panic_refuted", "C19_no_panic_partial", "C19_no_panic_in_memory_partial", "C19_public_error_partial", "C19_unreported_exactly_partial", "C19_panics_exactly_partial"], "note": "False of the code: revoking an unknown token fails without a public error and a failing resource lookup during a token exchange panics (both refuted by concrete runs). Proved, when storage never answers nil without an error: a failure lacks a public error exactly when, in a revocation, the token lookup or the revocation failed, or, in a token exchange, the audience was not found, no token was generated or it could not be stored; and a request panics exactly when a resource lookup failed. What is missing is storage that answers nil without an error."},
{"property": "C20", "status": "proved", "theorems": ["C20_lifetimes"], "note": ""},
{"property": "C21", "status": "proved", "theorems": ["C21_subjects_consented"], "note": ""},
{"property": "C22", "status": "partial", "theorems": ["C22_tokens_isolated_partial", "C22_codes_isolated_partial", "C22_introspection_isolated_refuted", "C22_codes_isolated_refuted"], "note": "False in general: the issuer and the secret are concatenated without separator before hashing, so an issuer that extends another one's name reaches its tokens and codes (refuted by concrete runs). Proved when no issuer is a proper prefix of another and the hash has no collisions."},
{"property": "C23", "status": "proved", "theorems": ["C23_pointers_resolved", "C23_token_store_is_a_map"], "note": ""},
{"property": "C24", "status": "proved", "theorems": ["C24_success_means_stored"], "note": ""},
{"property": "C25", "status": "proved", "theorems": ["C25_authorize_valid_requests"], "note": ""},
{"property": "C26", "status": "partial", "theorems": ["C26_redirect_registered_partial", "C26_redirect_exact_refuted"], "note": "False as an exact comparison: redirect URIs are compared up to case (refuted by a concrete run). Proved: equal to a registered URI up to Unicode case folding."},
{"property": "C27", "status": "partial", "theorems": ["C27_no_offline_without_consent_partial", "C27_no_offline_without_consent_refuted", "C27_listed_twice_refuted"], "note": "False when offline_access is listed twice: only one occurrence is removed (refuted by a concrete run, and for all histories: whoever lists it twice and redeems the code in time gets a refresh token). Proved: offline tokens need consent, or a scope that repeats offline_access."},
{"property": "C28", "status": "proved", "theorems": ["C28_deleted_request_unusable", "C28_request_uri_once"], "note": ""},
{"property": "C29", "status": "proved", "theorems": ["C29_register_own_client", "C29_pushed_request_as_pushed"], "note": ""},
{"property": "C30", "status": "partial", "theorems": ["C30_generated_uri_refused_refuted", "C30_accepted_uris_partial"], "note": "False of the code: no generated request_uri passes its own generator's validation (C30_generated_uri_refused_refuted, for every draw). Proved instead: exactly which strings validation accepts."},
{"property": "C31", "status": "proved", "theorems": ["C31_response_mode"], "note": ""},
{"property": "C32", "status": "proved", "theorems": ["C32_private_key_jwt"], "note": ""},
{"property": "C33", "status": "partial", "theorems": ["C33_assertion_audience_and_replay_refuted", "C33_until_expiry_refuted"], "note": "False of the code: neither the audience nor earlier use of the assertion is checked (refuted by a concrete run). For all histories: an assertion accepted once is accepted whenever it is presented until it expires (C33_until_expiry_refuted)."},
{"property": "C34", "status": "partial", "theorems": ["C34_attestation_partial", "C34_attested_client_refuted"], "note": "Proved except for the binding of the attested subject to the authenticated client, which the code does not check (refuted by a concrete run)."},
{"property": "C35", "status": "proved", "theorems": ["C35_dpop_sound"], "note": ""},
{"property": "C36", "status": "partial", "theorems": ["C36_dpop_once_partial", "C36_dpop_once_refuted"], "note": "False if the second verification takes 29 s and 2 ns or more: received one nanosecond before the proof is too old, it looks into the cache when the entry is gone (C36_dpop_once_refuted). Proved when it takes at most 29 s and 1 ns, so the bound is exact."},
{"property": "C37", "status": "partial", "theorems": ["C37_dpop_once_partial", "C37_dpop_race_refuted", "C37_every_checker_refuted"], "note": "False under concurrency: the existence check and the registration are two steps (refuted by a concrete run). Proved: of two acceptances each checked before the other registered. For all histories: every verification that finds the proof new accepts it (C37_every_checker_refuted)."},
{"property": "C38", "status": "proved", "theorems": ["C38_dpop_binds_token"], "note": ""},
{"property": "C39", "status": "proved", "theorems": ["C39_secure_compare"], "note": ""},
{"property": "C40", "status": "proved", "theorems": ["C40_contains", "C40_add", "C40_remove", "C40_has_one_of", "C40_has_all"], "note": "HasAll of no items is false in the code, so 'all' is proved for non-empty item lists and the statement says so."},
{"property": "C41", "status": "partial", "theorems": ["C41_round_trip", "C41_uuid_width", "C41_mac_width_partial", "C41_mac_width_refuted"], "note": "The width claim is false for the 44 byte value of verifiable tokens: its numeral can have 60 digits where 59 are declared (C41_mac_width_refuted). The round trip and the UUID width are proved in full."},
{"property": "C42", "status": "proved", "theorems": ["C42_round_trip", "C42_generation"], "note": ""},
{"property": "C43", "status": "proved", "theorems": ["C43_accepted_is_authentic", "C43_relabelled_is_rejected"], "note": ""},
{"property": "C44", "status": "partial", "theorems": ["C44_crash_refuted", "C44_crash_exactly_partial"], "note": "False of the code: for every secret there is a string on which extraction panics (C44_crash_refuted). Proved instead: exactly the well spelled strings whose numbers exceed 16 or 44 bytes make it panic."},
{"property": "C45", "status": "partial", "theorems": ["C45_leading_zero_refuted", "C45_one_spelling_partial"], "note": "False of the code: a zero put before the last part of an accepted token of 59 digits gives a second accepted spelling (C45_leading_zero_refuted). Proved instead: two spellings of the same length are equal."},
{"property": "C46", "status": "partial", "theorems": ["C46_generated_pair", "C46_validate_refuses_generated_refuted", "C46_validate_is_equality_partial"], "note": "The pair's format and relation are proved. The claim about Validate is false: it refuses every generated pair (C46_validate_refuses_generated_refuted) because it compares the decoded challenge and verifier without hashing (C46_validate_is_equality_partial)."},
{"property": "C47", "status": "proved", "theorems": ["C47_round_trip", "C47_length"], "note": ""},
{"property": "C48", "status": "partial", "theorems": ["C48_round_trip_partial", "C48_long_lifetime_refuted", "C48_never_expires_refuted", "C48_error_round_trip_partial", "C48_sdk_signer_refuted"], "note": "False with the SDK's own JARM signer: it writes the type 'jarm' and the decoder requires 'jarm+jwt', so every response it encodes is refused (C48_sdk_signer_refuted). Proved with a signer that writes the required type, for lifetimes of at most 9e9 seconds; longer ones overflow: a response that should live for 9223372037 seconds or more, but not past 2^64 ns, never expires (C48_never_expires_refuted), and a response with a lifetime between 1.7e10 and 18446744000 seconds is expired when it is made (C48_long_lifetime_refuted); the decoder does not return the client id and lifetime."},
{"property": "C49", "status": "partial", "theorems": ["C49_accepted_responses", "C49_error_responses_partial", "C49_error_responses_refuted"], "note": "Proved in full for responses that carry a code. Error responses are accepted whatever issuer, audience and time they are for (C49_error_responses_refuted); for them the signature and type checks are proved."},
{"property": "C50", "status": "partial", "theorems": ["C50_rejections", "C50_distinct_partial", "C50_distinct_refuted"], "note": "Distinctness is false: sector and subject are concatenated without separator, so for every hash and salt different pairs share an identifier (C50_distinct_refuted). Proved: equal identifiers come from equal concatenations unless the hash collides, hence from equal pairs for sectors of equal length; and exactly what is rejected."},
{"property": "C51", "status": "proved", "theorems": ["C51_codes", "C51_code_validation", "C51_user_codes"], "note": ""},
{"property": "C52", "status": "proved", "theorems": ["C52_introspection_document"], "note": ""},
{"property": "C53", "status": "partial", "theorems": ["C53_access_token_claims", "C53_refresh_token_claims_partial", "C53_refresh_confirmation_refuted"], "note": "Proved in full for access tokens. Refresh tokens lose the key confirmation (C53_refresh_confirmation_refuted); everything else is proved for them."},
{"property": "C54", "status": "proved", "theorems": ["C54_verifier", "C54_provider_failure", "C54_signature", "C54_validate_token"], "note": ""},
{"property": "C55", "status": "proved", "theorems": ["C55_key_cache"], "note": ""},
{"property": "C56", "status": "partial", "theorems": ["C56_admission_partial", "C56_no_context_refuted"], "note": "Proved for every client.Client: admission requires an active token of the right kind, a permission and, for tokens whose introspection carries them, age and context. False otherwise: when the introspection does not tell the authentication time and context, whatever is required of them is not enforced (C56_no_context_refuted); this server's introspection endpoint never tells them. With the SDK's own client nobody is admitted at all, see C61."},
{"property": "C57", "status": "partial", "theorems": ["C57_bound_tokens_partial", "C57_bound_tokens", "C57_refresh_proof_refuted"], "note": "Proved over all HTTP histories: every token created for a DPoP-bound client carries the thumbprint of a proof that was accepted from some request of the history. The confirmation is not always that of the proof of the same request: a refresh keeps the old key whatever key signed the new proof (C57_refresh_proof_refuted)."},
{"property": "C58", "status": "proved", "theorems": ["C58_authenticated_clients"], "note": ""},
{"property": "C59", "status": "partial", "theorems": ["C59_built_errors_partial", "C59_expired_device_code_refuted", "C59_codes_distinct"], "note": "The expired device code condition has code token_expired where RFC 8628 registers expired_token (C59_expired_device_code_refuted); everything else is proved for the other 18 conditions."},
{"property": "C60", "status": "proved", "theorems": ["C60_deleted_code_unusable", "C60_no_token_before_deletion"], "note": ""},
{"property": "C61", "status": "partial", "theorems": ["C61_document_partial", "C61_client_crashes_refuted", "C61_nobody_admitted_refuted", "C61_bearer_crashes_refuted"], "note": "The document of the endpoint is right (C61_document_partial), but the SDK client panics on it, and on every other document: the structure it decodes into embeds *TokenMeta, whose UnmarshalJSON is thereby called on a nil pointer (C61_client_crashes_refuted). So the resource server middleware with the SDK client lets no request pass (C61_nobody_admitted_refuted) and panics on every bearer token whose introspection is answered (C61_bearer_crashes_refuted)."},
{"property": "C62", "status": "partial", "theorems": ["C62_token_response_partial", "C62_token_type_refuted"], "note": "token_type says whether the request had a DPoP header, not whether the token is bound; a refresh without a proof of a bound token answers Bearer (C62_token_type_refuted). Proved: everything else, and the type for the other grants."},
{"property": "C63", "status": "proved", "theorems": ["C63_pushed_requests"], "note": ""},
{"property": "C64", "status": "partial", "theorems": ["C64_signed_requests_partial", "C64_signed_requests_refuted"], "note": "The request is verified with the keys of the client named in the query while the code is issued to the client named in the signed request (C64_signed_requests_refuted). Proved: some registered client, the one of the query, signed it, and the code's content is that of the signed or of the pushed request."},
{"property": "C65", "status": "partial", "theorems": ["C65_only_crashes_partial", "C65_revoke_unknown_refuted", "C65_no_openid_refuted"], "note": "False of the code: the revocation of unknown tokens and the redemption of codes granted without openid crash (refuted by concrete runs). Proved instead, for fault-free histories: these two and an attestation with a null key are the only requests whose handler crashes."},
{"property": "C66", "status": "partial", "theorems": ["C66_response_mode_refuted"], "note": "The response mode is never set on the response, so JARM responses are always sent in the query whatever mode was requested."},
{"property": "C67", "status": "partial", "theorems": ["C67_device_client_partial", "C67_device_client_refuted"], "note": "The client is taken from the form, not from the authentication (C67_device_client_refuted). Proved: it exists, is allowed the device grant and the session starts without a subject."},
{"property": "C68", "status": "partial", "theorems": ["C68_pairwise_partial", "C68_pairwise_refuted"], "note": "Subject type and sector are those of the client of the query string, which need not be the client the code is issued to (C68_pairwise_refuted). Proved when they are the same."},
{"property": "C69", "status": "proved", "theorems": ["C69_web_code_once"], "note": ""},
{"property": "C70", "status": "proved", "theorems": ["C70_web_code_grant"], "note": ""},
{"property": "C71", "status": "proved", "theorems": ["C71_web_revocation_permanent"], "note": ""},
{"property": "C72", "status": "proved", "theorems": ["C72_web_introspection"], "note": ""},
{"property": "C73", "status": "proved", "theorems": ["C73_web_device_grant"], "note": ""},
{"property": "C74", "status": "proved", "theorems": ["C74_web_request_uri_once"], "note": ""},
{"property": "C75", "status": "proved", "theorems": ["C75_web_refresh_grant"], "note": ""},
{"property": "C76", "status": "proved", "theorems": ["C76_web_consent"], "note": ""},
{"property": "C77", "status": "partial", "theorems": ["C77_web_refresh_rotation_partial", "C77_in_flight_refuted"], "note": "False for requests in flight: of two refreshes with one token at the same time, the second one is answered with another pair after the first pair was handed out (C77_in_flight_refuted). Proved for requests received after the answer with the new token."},
{"property": "C78", "status": "proved", "theorems": ["C78_success_needs_registered_grant", "C78_tokens_need_registered_grant"], "note": ""},
{"property": "C79", "status": "partial", "theorems": ["C79_poll_pending_partial", "C79_in_memory_refuted"], "note": "False with the in-memory store, which leaves the expiry of a session at 0, so every poll is told that the code has expired (C79_in_memory_refuted). Proved for a store that fills in expiry and status."},
{"property": "C80", "status": "partial", "theorems": ["C80_honest_proof_accepted_partial", "C80_sdk_signer_refuted"], "note": "False of the SDK as it is: its builder signs with the type 'dpop' and the verifier wants 'dpop+jwt', so every proof is refused (C80_sdk_signer_refuted). Proved for a signer that writes the right type, and URLs that the prover's cleaning does not change."},
{"property": "C81", "status": "proved", "theorems": ["C81_requests_never_wait", "C81_http_requests_never_wait"], "note": ""},
{"property": "C82", "status": "proved", "theorems": ["C82_fresh_code_is_redeemed"], "note": ""},
{"property": "C83", "status": "proved", "theorems": ["C83_live_refresh_token_works"], "note": ""},
{"property": "C84", "status": "proved", "theorems": ["C84_client_credentials_work"], "note": ""},
{"property": "C85", "status": "partial", "theorems": ["C85_approval_succeeds_partial"], "note": "proved for a device-session store that marks new sessions as pending with a lifetime of 120 s; the in-memory store of the repository never does, so no approval succeeds there (C15)"},
{"property": "C86", "status": "proved", "theorems": ["C86_valid_request_is_authorized", "C86_valid_request_is_registered"], "note": ""},
{"property": "C87", "status": "proved", "theorems": ["C87_pushed_request_is_authorized"], "note": ""},
{"property": "C88", "status": "proved", "theorems": ["C88_introspection_needs_client", "C88_revocation_needs_client", "C88_revoked_for_client"], "note": ""},
{"property": "C89", "status": "proved", "theorems": ["C89_device_response"], "note": ""},
{"property": "C90", "status": "partial", "theorems": ["C90_approval_gate", "C90_approved_once", "C90_approved_once_refuted"], "note": "proved for approvals one after the other; two approvals at the same time may both be told success and the device gets a token for the later one (C90_approved_once_refuted)"},
{"property": "C91", "status": "proved", "theorems": ["C91_store_holds_hashes"], "note": ""},
{"property": "C92", "status": "partial", "theorems": ["C92_linearizable", "C92_seed_decides", "C92_call_can_return", "C92_after_panic", "C92_calls_return_refuted"], "note": "True as long as no call panics and no function passed to Shuffle uses the generator; after either, the lock is never released and no later call returns (C92_after_panic, C92_calls_return_refuted)."},
{"property": "C93", "status": "partial", "theorems": ["C93_round_trip", "C93_decoded_again", "C93_injective", "C93_hollow_grant_refuted"], "note": "Proved for every value without a nil inside a oneof wrapper, of every message type, up to 2^62 bytes. C93_hollow_grant_refuted: a token request whose grant wrapper holds nil loses the wrapper. Nil elements of repeated messages and nil maps are identified with empty ones by the model."},
{"property": "C94", "status": "proved", "theorems": ["C94_size"], "note": ""},
{"property": "C95", "status": "partial", "theorems": ["C95_decoding_total", "C95_hollow_grant_refuted"], "note": "Proved for every destination that is a value of its type (no nil inside a oneof wrapper) and up to 2^62 bytes. C95_hollow_grant_refuted: with such a nil, decoding panics."},
{"property": "C96", "status": "proved", "theorems": ["C96_concatenation"], "note": ""},
{"property": "C97", "status": "partial", "theorems": ["C97_same_bytes_refuted", "C97_entries_apart_refuted"], "note": "False of the code: C97_same_bytes_refuted and C97_entries_apart_refuted give the witnesses."},
{"property": "C98", "status": "partial", "theorems": ["C98_credentials_accepted", "C98_sdk_assertion_accepted", "C98_sdk_gets_token", "C98_introspection_partial", "C98_sdk_introspects_refuted", "C98_new_token_is_active_refuted", "C98_bound_client_refuted"], "note": "The server's answer says active, with scope and client, one second after the token was issued and for a client that need not prove possession (C98_introspection_partial); the SDK client panics on that answer (C98_sdk_introspects_refuted). C98_new_token_is_active_refuted: in the second of its issue a token is inactive (nbf is one second after iat). C98_bound_client_refuted: a client marked as DPoP-bound gets no token with the SDK, which sends no proof. No storage faults; the private key the SDK signs with is one the client registered."},
{"property": "C99", "status": "proved", "theorems": ["C99_web_refresh_works"], "note": ""},
{"property": "C100", "status": "proved", "theorems": ["C100_web_code_redeemed"], "note": ""},
{"property": "C101", "status": "proved", "theorems": ["C101_web_authorized"], "note": ""},
{"property": "C102", "status": "proved", "theorems": ["C102_web_pushed"], "note": ""},
{"property": "C103", "status": "proved", "theorems": ["C103_web_pushed_request_followed"], "note": ""},
{"property": "C104", "status": "partial", "theorems": ["C104_web_device_starts", "C104_web_device_approved_partial", "C104_web_device_tokens_partial", "C104_web_device_flow_partial", "C104_web_device_flow_refuted"], "note": "That codes are given out is proved for every store. The rest is false of the in-memory store, which never sets the expiry of a device session: C104_web_device_flow_refuted says, for all histories, that no approval is accepted and no poll gets tokens. Proved for a store that marks new sessions as pending for 120 s. No storage faults, codes of different requests differ."},
{"property": "C105", "status": "partial", "theorems": ["C105_linearizable_partial", "C105_found_by_id_refuted", "C105_deleted_returns_refuted", "C105_revoked_stays", "C105_one_at_a_time"], "note": "Linearizability is false in two ways: a lookup by identifier can find a token before its creation is complete, and then a lookup by value misses it (C105_found_by_id_refuted); a Delete during a Revoke is undone by it (C105_deleted_returns_refuted). Proved when identifiers are learnt from the store and nobody deletes, as in the services, which only create, look up by value and revoke what they looked up. Calls that do not overlap, deletions and reused identifiers included, give the results of the sequential store (C105_one_at_a_time). That revoked tokens stay revoked needs neither. Interleavings of atomic steps: Go's memory model (no data race on the status field) is not modelled."},
{"property": "C106", "status": "partial", "theorems": ["C106_attestation_valid", "C106_attested_token_partial", "C106_example_refuted", "C106_any_client_refuted"], "note": "Proved for an authorization server that accepts the algorithms of both example programs. False of the examples as shipped: the attestation server signs with EdDSA and the authorization server accepts only ES256 and ES384 for client authentication, so that in every history the attested client is answered 401 (C106_example_refuted). Were EdDSA accepted, whoever reaches both servers would be given tokens of any registered client: the attestation server signs whatever it is sent and the proof may name another client than the attestation (C106_any_client_refuted). A request to the attestation server without a key crashes its handler (sign_handler)."},
{"property": "C107", "status": "partial", "theorems": ["C107_metadata_shape", "C107_metadata_undisturbed_partial", "C107_missing_refuted", "C107_nested_refuted"], "note": "False under concurrency: the requests share one document. With two requests a document is served without signed_metadata (C107_missing_refuted), and with n+1 requests one is served whose signature covers a document with a signature, n+1 deep (C107_nested_refuted). Proved: whatever the schedule, what is served is empty or a tower of signatures by the server over this metadata (C107_metadata_shape), and a request that no other disturbs serves the right signature (C107_metadata_undisturbed_partial)."},
{"property": "C108", "status": "partial", "theorems": ["C108_discovery", "C108_usable", "C108_issuer_refuted", "C108_null_refuted", "C108_crash_exactly_partial", "C108_fails_exactly"], "note": "The client is proved to work with the server of the examples (C108_discovery) and to come only from a metadata document and a usable key set (C108_usable). The comparison of the issuer that RFC 8414 demands is missing (C108_issuer_refuted), and the JSON value null as metadata crashes the client (C108_null_refuted). The client crashes on no other answers than null for the metadata or for the key set (C108_crash_exactly_partial), and fails exactly when there is no metadata or no usable key set (C108_fails_exactly)."},
{"property": "C109", "status": "partial", "theorems": ["C109_round_trip", "C109_encodes", "C109_nothing_invented", "C109_written", "C109_foreign_claims", "C109_standard_refuted"], "note": "Proved. The price of refusing unknown claims: a request object as in RFC 9101, which names the server in the claim aud, is refused (C109_standard_refuted); so is one with an expiry."},
{"property": "C110", "status": "proved", "theorems": ["C110_code_flow"], "note": ""},
{"property": "C111", "status": "partial", "theorems": ["C111_one_purpose_partial", "C111_tokens_partial", "C111_assertion_as_possession_refuted", "C111_token_as_possession_refuted", "C111_token_as_assertion_refuted"], "note": "Proved for proofs, responses, requests and introspection documents: no reader takes them for anything else (C111_one_purpose_partial). False for the three crossings that this theorem leaves open: a client assertion (C111_assertion_as_possession_refuted) or an access token (C111_token_as_possession_refuted) is accepted as a proof of possession when the attested key is the one that signed it, and a token that names its issuer as subject, and no other token (C111_tokens_partial), is accepted as a client assertion of the client of that name with that key (C111_token_as_assertion_refuted). The readers of assertions, attestations and proofs of possession ask for no type."},
{"property": "C112", "status": "partial", "theorems": ["C112_signed_objects", "C112_purpose_told", "C112_signs", "C112_crash_exactly_partial", "C112_no_provider_refuted", "C112_identifier_refuted", "C112_jwt_type_refuted"], "note": "Proved for what is signed, for the three formats (C112_signed_objects, C112_purpose_told, C112_signs). Crashes: a CWT serializer without provider (C112_no_provider_refuted), or without algorithm once it has a usable key, and in no other case (C112_crash_exactly_partial). The key identifier of a CWT is not covered by the signature (C112_identifier_refuted), and the type of a JWT does not name the format, which is why the readers of this code base refuse it (C112_jwt_type_refuted). The libraries' contract is a hypothesis."},
{"property": "C113", "status": "partial", "theorems": ["C113_kept", "C113_registered", "C113_only_registered", "C113_own_identifiers", "C113_servers_registry", "C113_by_name", "C113_one_name", "C113_one_name_refuted", "C113_own_identifiers_refuted"], "note": "Proved for callers that leave a record alone once it is registered (C113_own_identifiers, C113_kept), so that the registry hypothesis of the other theorems holds for the built-in clients and whatever is added to them (C113_servers_registry). A record registered twice answers to its first identifier with its second (C113_own_identifiers_refuted). Lookups by name are exact up to case (C113_by_name) and deterministic when names are distinct (C113_one_name); the built-in registry has two clients of one name, one public and one credentialed (C113_one_name_refuted). Calls are sequential: the map is not synchronised."},
{"property": "C114", "status": "proved", "theorems": ["C114_pushed_flow"], "note": ""},
{"property": "C115", "status": "partial", "theorems": ["C115_form_round_trip", "C115_posted_form", "C115_response_read", "C115_code_delivered", "C115_fragment", "C115_query_lost_refuted"], "note": "Proved for every form with distinct names (C115_form_round_trip), for what the SDK client posts (C115_posted_form), for every redirect the authorization endpoint answers with (C115_response_read), up to the delivery of the code (C115_code_delivered), and for the fragment mode when the response is made of the characters of a JWT (C115_fragment; no request reaches that mode, C66). False of the redirect URI's own query: it is replaced, although RFC 6749 3.1.2 wants it retained (C115_query_lost_refuted)."},
{"property": "C116", "status": "partial", "theorems": ["C116_every_response", "C116_user_pages", "C116_errors", "C116_location", "C116_token_headers", "C116_no_store_refuted", "C116_login_page_refuted"], "note": "Proved for whatever users who have logged in get (C116_user_pages), for error documents and challenges (C116_errors) and for redirects (C116_location); every response has exactly one header (C116_every_response). False of responses with tokens, whose only header is Content-Type, so that nothing keeps a cache from storing them (C116_token_headers, C116_no_store_refuted), and of the page that asks for a password: the security headers are added only after the login (C116_login_page_refuted)."},
{"property": "C117", "status": "proved", "theorems": ["C117_no_reuse", "C117_web_no_reuse", "C117_kind", "C117_different", "C117_total", "C117_other_key"], "note": ""},
{"property": "C118", "status": "partial", "theorems": ["C118_grant_types", "C118_exchange_refuted", "C118_dpop_refuted", "C118_request_objects", "C118_challenge_methods", "C118_auth_methods", "C118_subjects_refuted", "C118_auth_methods_refuted", "C118_response_types_refuted"], "note": "Proved: every grant that gives tokens is announced (C118_grant_types), every stored request uses an announced challenge method (C118_challenge_methods), every signed request that is acted upon uses an announced algorithm (C118_request_objects), every request served at the endpoints for clients uses an announced method or is that of a registered public client (C118_auth_methods). False: token exchange is announced and no request for it ever gets tokens (C118_exchange_refuted); proofs of possession signed with the only announced algorithm are all refused (C118_dpop_refuted); public clients are served without an announced method (C118_auth_methods_refuted); clients not registered for pairwise subjects get the login itself (C118_subjects_refuted); the response type token, not announced, gets a code (C118_response_types_refuted)."},
{"property": "C119", "status": "proved", "theorems": ["C119_sent_once", "C119_two_values", "C119_own_token"], "note": ""},
{"property": "C120", "status": "partial", "theorems": ["C120_no_secret", "C120_secret_unseen", "C120_served_key", "C120_always_asked", "C120_verifies", "C120_settings", "C120_failure", "C120_nil_set_refuted", "C120_any_provider_refuted"], "note": "Proved for the server of the example, whatever document it is started with: the response of the key endpoint has no member d (C120_no_secret) and does not depend on the secret (C120_secret_unseen); it is read by the SDK client as the public part of the signing key (C120_served_key), each time anew (C120_always_asked); what the server signs verifies with it (C120_verifies); the settings of the example are usable (C120_settings); a failing provider gives 500, which the client survives (C120_failure). False for other providers: the handler sends whatever key it is given, with the secret (C120_any_provider_refuted), and a nil set makes the client panic (C120_nil_set_refuted)."},
{"property": "C121", "status": "partial", "theorems": ["C121_profiles", "C121_purposes", "C121_response_types_refuted", "C121_grants", "C121_codes", "C121_no_refresh", "C121_web_refresh_refuted"], "note": "Proved: every profile lists announced grants and methods (C121_profiles); a client registered with a profile gets tokens by its grants only (C121_grants), codes only if it is a web or native application and with response type code (C121_codes), and refreshes only if it is a native application or a device (C121_no_refresh). False: the profile gives services the response type token, which is not announced (C121_response_types_refuted); a web application, which can never refresh, is given refresh tokens (C121_web_refresh_refuted)."}
]}
