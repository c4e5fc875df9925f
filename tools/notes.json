{
 "C03": "The claim is false of the code: two interleaved redemptions of one code both succeed (C03_concurrent_double_redemption_refuted). Proved instead: whoever redeems successfully read the session before the first deletion of that code, or the code was handed out again. It is not one interleaving: every redemption within a minute that looks the code up before its first deletion succeeds, however many there are (C03_every_reader_refuted).",
 "C06": "False of the code: a client with the same registered redirect URI can redeem another client's code (refuted by a concrete run, and, for all histories: any such client that has the code verifier and looks the code up in time gets a token for that user). Proved when no two clients share a redirect URI.",
 "C09": "False of the code: a refresh token far from expiry stays usable after a refresh (refuted by a concrete run). Proved for refreshes that return a new refresh token. For all histories: a live refresh token works as long as it has not been revoked, however often it was used before (C09_unrevoked_refuted).",
 "C11": "False of the code: revocation does not look at the token's owner (refuted by a concrete run). Proved: revocation only ever revokes the token stored under the presented value. For all histories: any registered client that presents the value of a stored token revokes it (C11_anyone_refuted).",
 "C13": "False of the code: the requested scope is copied into the new token (refuted by a concrete run). Proved when the request names no scope: the scope is that of the subject token. For all histories: whatever scope is asked for is granted (C13_any_scope_refuted).",
 "C15": "False of the code as shipped: with the in-memory device store no approval ever succeeds, because the store never sets the expiry (C15_in_memory_never_refuted, for all histories). Proved for a store that does set expiry and status: a poll after an approval gets tokens. That an approval itself succeeds is C85.",
 "C16": "False of the code: nothing deletes the device-code index, so a second poll gets a second pair of tokens (refuted by a concrete run). For all histories and any number of polls within the lifetime: as many different tokens (C16_every_poll_refuted).",
 "C19": "False of the code: revoking an unknown token fails without a public error and a failing resource lookup during a token exchange panics (both refuted by concrete runs). Proved, when storage never answers nil without an error: a failure lacks a public error exactly when, in a revocation, the token lookup or the revocation failed, or, in a token exchange, the audience was not found, no token was generated or it could not be stored; and a request panics exactly when a resource lookup failed. What is missing is storage that answers nil without an error.",
 "C22": "False in general: the issuer and the secret are concatenated without separator before hashing, so an issuer that extends another one's name reaches its tokens and codes (refuted by concrete runs). Proved when no issuer is a proper prefix of another and the hash has no collisions.",
 "C26": "False as an exact comparison: redirect URIs are compared up to case (refuted by a concrete run). Proved: equal to a registered URI up to Unicode case folding.",
 "C27": "False when offline_access is listed twice: only one occurrence is removed (refuted by a concrete run, and for all histories: whoever lists it twice and redeems the code in time gets a refresh token). Proved: offline tokens need consent, or a scope that repeats offline_access.",
 "C33": "False of the code: neither the audience nor earlier use of the assertion is checked (refuted by a concrete run). For all histories: an assertion accepted once is accepted whenever it is presented until it expires (C33_until_expiry_refuted).",
 "C34": "Proved except for the binding of the attested subject to the authenticated client, which the code does not check (refuted by a concrete run).",
 "C36": "False if the second verification takes 29 s and 2 ns or more: received one nanosecond before the proof is too old, it looks into the cache when the entry is gone (C36_dpop_once_refuted). Proved when it takes at most 29 s and 1 ns, so the bound is exact.",
 "C37": "False under concurrency: the existence check and the registration are two steps (refuted by a concrete run). Proved: of two acceptances each checked before the other registered. For all histories: every verification that finds the proof new accepts it (C37_every_checker_refuted).",
 "C30": "False of the code: no generated request_uri passes its own generator's validation (C30_generated_uri_refused_refuted, for every draw). Proved instead: exactly which strings validation accepts.",
 "C40": "HasAll of no items is false in the code, so 'all' is proved for non-empty item lists and the statement says so.",
 "C41": "The width claim is false for the 44 byte value of verifiable tokens: its numeral can have 60 digits where 59 are declared (C41_mac_width_refuted). The round trip and the UUID width are proved in full.",
 "C44": "False of the code: for every secret there is a string on which extraction panics (C44_crash_refuted). Proved instead: exactly the well spelled strings whose numbers exceed 16 or 44 bytes make it panic.",
 "C45": "False of the code: a zero put before the last part of an accepted token of 59 digits gives a second accepted spelling (C45_leading_zero_refuted). Proved instead: two spellings of the same length are equal.",
 "C46": "The pair's format and relation are proved. The claim about Validate is false: it refuses every generated pair (C46_validate_refuses_generated_refuted) because it compares the decoded challenge and verifier without hashing (C46_validate_is_equality_partial).",
 "C50": "Distinctness is false: sector and subject are concatenated without separator, so for every hash and salt different pairs share an identifier (C50_distinct_refuted). Proved: equal identifiers come from equal concatenations unless the hash collides, hence from equal pairs for sectors of equal length; and exactly what is rejected.",
 "C59": "The expired device code condition has code token_expired where RFC 8628 registers expired_token (C59_expired_device_code_refuted); everything else is proved for the other 18 conditions.",
 "C48": "False with the SDK's own JARM signer: it writes the type 'jarm' and the decoder requires 'jarm+jwt', so every response it encodes is refused (C48_sdk_signer_refuted). Proved with a signer that writes the required type, for lifetimes of at most 9e9 seconds; longer ones overflow: a response that should live for 9223372037 seconds or more, but not past 2^64 ns, never expires (C48_never_expires_refuted), and a response with a lifetime between 1.7e10 and 18446744000 seconds is expired when it is made (C48_long_lifetime_refuted); the decoder does not return the client id and lifetime.",
 "C49": "Proved in full for responses that carry a code. Error responses are accepted whatever issuer, audience and time they are for (C49_error_responses_refuted); for them the signature and type checks are proved.",
 "C53": "Proved in full for access tokens. Refresh tokens lose the key confirmation (C53_refresh_confirmation_refuted); everything else is proved for them.",
 "C56": "Proved for every client.Client: admission requires an active token of the right kind, a permission and, for tokens whose introspection carries them, age and context. False otherwise: when the introspection does not tell the authentication time and context, whatever is required of them is not enforced (C56_no_context_refuted); this server's introspection endpoint never tells them. With the SDK's own client nobody is admitted at all, see C61.",
 "C57": "Proved over all HTTP histories: every token created for a DPoP-bound client carries the thumbprint of a proof that was accepted from some request of the history. The confirmation is not always that of the proof of the same request: a refresh keeps the old key whatever key signed the new proof (C57_refresh_proof_refuted).",
 "C61": "The document of the endpoint is right (C61_document_partial), but the SDK client panics on it, and on every other document: the structure it decodes into embeds *TokenMeta, whose UnmarshalJSON is thereby called on a nil pointer (C61_client_crashes_refuted). So the resource server middleware with the SDK client lets no request pass (C61_nobody_admitted_refuted) and panics on every bearer token whose introspection is answered (C61_bearer_crashes_refuted).",
 "C62": "token_type says whether the request had a DPoP header, not whether the token is bound; a refresh without a proof of a bound token answers Bearer (C62_token_type_refuted). Proved: everything else, and the type for the other grants.",
 "C64": "The request is verified with the keys of the client named in the query while the code is issued to the client named in the signed request (C64_signed_requests_refuted). Proved: some registered client, the one of the query, signed it, and the code's content is that of the signed or of the pushed request.",
 "C65": "False of the code: the revocation of unknown tokens and the redemption of codes granted without openid crash (refuted by concrete runs). Proved instead, for fault-free histories: these two and an attestation with a null key are the only requests whose handler crashes.",
 "C66": "The response mode is never set on the response, so JARM responses are always sent in the query whatever mode was requested.",
 "C67": "The client is taken from the form, not from the authentication (C67_device_client_refuted). Proved: it exists, is allowed the device grant and the session starts without a subject.",
 "C68": "Subject type and sector are those of the client of the query string, which need not be the client the code is issued to (C68_pairwise_refuted). Proved when they are the same.",
 "C77": "False for requests in flight: of two refreshes with one token at the same time, the second one is answered with another pair after the first pair was handed out (C77_in_flight_refuted). Proved for requests received after the answer with the new token.",
 "C79": "False with the in-memory store, which leaves the expiry of a session at 0, so every poll is told that the code has expired (C79_in_memory_refuted). Proved for a store that fills in expiry and status.",
 "C80": "False of the SDK as it is: its builder signs with the type 'dpop' and the verifier wants 'dpop+jwt', so every proof is refused (C80_sdk_signer_refuted). Proved for a signer that writes the right type, and URLs that the prover's cleaning does not change.",
 "C85": "proved for a device-session store that marks new sessions as pending with a lifetime of 120 s; the in-memory store of the repository never does, so no approval succeeds there (C15)",
 "C90": "proved for approvals one after the other; two approvals at the same time may both be told success and the device gets a token for the later one (C90_approved_once_refuted)",
 "C92": "True as long as no call panics and no function passed to Shuffle uses the generator; after either, the lock is never released and no later call returns (C92_after_panic, C92_calls_return_refuted).",
 "C93": "Proved for every value without a nil inside a oneof wrapper, of every message type, up to 2^62 bytes. C93_hollow_grant_refuted: a token request whose grant wrapper holds nil loses the wrapper. Nil elements of repeated messages and nil maps are identified with empty ones by the model.",
 "C95": "Proved for every destination that is a value of its type (no nil inside a oneof wrapper) and up to 2^62 bytes. C95_hollow_grant_refuted: with such a nil, decoding panics.",
 "C97": "False of the code: C97_same_bytes_refuted and C97_entries_apart_refuted give the witnesses.",
 "C98": "The server's answer says active, with scope and client, one second after the token was issued and for a client that need not prove possession (C98_introspection_partial); the SDK client panics on that answer (C98_sdk_introspects_refuted). C98_new_token_is_active_refuted: in the second of its issue a token is inactive (nbf is one second after iat). C98_bound_client_refuted: a client marked as DPoP-bound gets no token with the SDK, which sends no proof. No storage faults; the private key the SDK signs with is one the client registered.",
 "C104": "That codes are given out is proved for every store. The rest is false of the in-memory store, which never sets the expiry of a device session: C104_web_device_flow_refuted says, for all histories, that no approval is accepted and no poll gets tokens. Proved for a store that marks new sessions as pending for 120 s. No storage faults, codes of different requests differ.",
 "C105": "Linearizability is false in two ways: a lookup by identifier can find a token before its creation is complete, and then a lookup by value misses it (C105_found_by_id_refuted); a Delete during a Revoke is undone by it (C105_deleted_returns_refuted). Proved when identifiers are learnt from the store and nobody deletes, as in the services, which only create, look up by value and revoke what they looked up. Calls that do not overlap, deletions and reused identifiers included, give the results of the sequential store (C105_one_at_a_time). That revoked tokens stay revoked needs neither. Interleavings of atomic steps: Go's memory model (no data race on the status field) is not modelled.",
 "C106": "Proved for an authorization server that accepts the algorithms of both example programs. False of the examples as shipped: the attestation server signs with EdDSA and the authorization server accepts only ES256 and ES384 for client authentication, so that in every history the attested client is answered 401 (C106_example_refuted). Were EdDSA accepted, whoever reaches both servers would be given tokens of any registered client: the attestation server signs whatever it is sent and the proof may name another client than the attestation (C106_any_client_refuted). A request to the attestation server without a key crashes its handler (sign_handler).",
 "C107": "False under concurrency: the requests share one document. With two requests a document is served without signed_metadata (C107_missing_refuted), and with n+1 requests one is served whose signature covers a document with a signature, n+1 deep (C107_nested_refuted). Proved: whatever the schedule, what is served is empty or a tower of signatures by the server over this metadata (C107_metadata_shape), and a request that no other disturbs serves the right signature (C107_metadata_undisturbed_partial).",
 "C108": "The client is proved to work with the server of the examples (C108_discovery) and to come only from a metadata document and a usable key set (C108_usable). The comparison of the issuer that RFC 8414 demands is missing (C108_issuer_refuted), and the JSON value null as metadata crashes the client (C108_null_refuted). The client crashes on no other answers than null for the metadata or for the key set (C108_crash_exactly_partial), and fails exactly when there is no metadata or no usable key set (C108_fails_exactly).",
 "C109": "Proved. The price of refusing unknown claims: a request object as in RFC 9101, which names the server in the claim aud, is refused (C109_standard_refuted); so is one with an expiry.",
 "C111": "Proved for proofs, responses, requests and introspection documents: no reader takes them for anything else (C111_one_purpose_partial). False for the three crossings that this theorem leaves open: a client assertion (C111_assertion_as_possession_refuted) or an access token (C111_token_as_possession_refuted) is accepted as a proof of possession when the attested key is the one that signed it, and a token that names its issuer as subject, and no other token (C111_tokens_partial), is accepted as a client assertion of the client of that name with that key (C111_token_as_assertion_refuted). The readers of assertions, attestations and proofs of possession ask for no type.",
 "C112": "Proved for what is signed, for the three formats (C112_signed_objects, C112_purpose_told, C112_signs). Crashes: a CWT serializer without provider (C112_no_provider_refuted), or without algorithm once it has a usable key, and in no other case (C112_crash_exactly_partial). The key identifier of a CWT is not covered by the signature (C112_identifier_refuted), and the type of a JWT does not name the format, which is why the readers of this code base refuse it (C112_jwt_type_refuted). The libraries' contract is a hypothesis.",
 "C113": "Proved for callers that leave a record alone once it is registered (C113_own_identifiers, C113_kept), so that the registry hypothesis of the other theorems holds for the built-in clients and whatever is added to them (C113_servers_registry). A record registered twice answers to its first identifier with its second (C113_own_identifiers_refuted). Lookups by name are exact up to case (C113_by_name) and deterministic when names are distinct (C113_one_name); the built-in registry has two clients of one name, one public and one credentialed (C113_one_name_refuted). Calls are sequential: the map is not synchronised.",
 "C115": "Proved for every form with distinct names (C115_form_round_trip), for what the SDK client posts (C115_posted_form), for every redirect the authorization endpoint answers with (C115_response_read), up to the delivery of the code (C115_code_delivered), and for the fragment mode when the response is made of the characters of a JWT (C115_fragment; no request reaches that mode, C66). False of the redirect URI's own query: it is replaced, although RFC 6749 3.1.2 wants it retained (C115_query_lost_refuted).",
 "C116": "Proved for whatever users who have logged in get (C116_user_pages), for error documents and challenges (C116_errors) and for redirects (C116_location); every response has exactly one header (C116_every_response). False of responses with tokens, whose only header is Content-Type, so that nothing keeps a cache from storing them (C116_token_headers, C116_no_store_refuted), and of the page that asks for a password: the security headers are added only after the login (C116_login_page_refuted).",
 "C118": "Proved: every grant that gives tokens is announced (C118_grant_types), every stored request uses an announced challenge method (C118_challenge_methods), every signed request that is acted upon uses an announced algorithm (C118_request_objects), every request served at the endpoints for clients uses an announced method or is that of a registered public client (C118_auth_methods). False: token exchange is announced and no request for it ever gets tokens (C118_exchange_refuted); proofs of possession signed with the only announced algorithm are all refused (C118_dpop_refuted); public clients are served without an announced method (C118_auth_methods_refuted); clients not registered for pairwise subjects get the login itself (C118_subjects_refuted); the response type token, not announced, gets a code (C118_response_types_refuted).",
 "C120": "Proved for the server of the example, whatever document it is started with: the response of the key endpoint has no member d (C120_no_secret) and does not depend on the secret (C120_secret_unseen); it is read by the SDK client as the public part of the signing key (C120_served_key), each time anew (C120_always_asked); what the server signs verifies with it (C120_verifies); the settings of the example are usable (C120_settings); a failing provider gives 500, which the client survives (C120_failure). False for other providers: the handler sends whatever key it is given, with the secret (C120_any_provider_refuted), and a nil set makes the client panic (C120_nil_set_refuted).",
 "C121": "Proved: every profile lists announced grants and methods (C121_profiles); a client registered with a profile gets tokens by its grants only (C121_grants), codes only if it is a web or native application and with response type code (C121_codes), and refreshes only if it is a native application or a device (C121_no_refresh). False: the profile gives services the response type token, which is not announced (C121_response_types_refuted); a web application, which can never refresh, is given refresh tokens (C121_web_refresh_refuted)."
}