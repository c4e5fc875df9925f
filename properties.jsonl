{"id": "C01", "title": "client_credentials is only for clients that may use it", "statement": "If a token request with grant_type=client_credentials succeeds, the authenticated client is known to the server, is of type confidential or credentialed and has client_credentials among its registered grant types; the response holds an access token for that very client with the requested scope and audience and without subject, and no refresh token.", "quantifier": "every token request, client registry, storage state, clock, generator output and storage failure pattern", "why_tests_cant": "the guard is a conjunction over open-ended input and registry contents; a table of requests samples it", "anchors": ["server/services/token/grant_client_credentials.go:clientCredentials", "server/services/token/service.go:Token", "server/services/token/validator.go:validateRequest"]}
{"id": "C02", "title": "An authorization code is redeemed at most once by sequential requests", "statement": "In any history of complete requests, once a token request has redeemed (or burned, by failing a later check) an authorization code of an issuer, no later token request presenting that code to that issuer succeeds, unless the server hands out the same code again.", "quantifier": "every finite history of requests to all services, with arbitrary clocks, generator outputs and storage failures", "why_tests_cant": "needs induction over unbounded histories that mix all operations", "anchors": ["server/services/token/grant_authorization_code.go:authorizationCode", "server/storage/inmemory/authorization_code_session.go:Delete"]}
{"id": "C03", "title": "An authorization code is redeemed at most once under concurrency", "statement": "However the storage steps of concurrent token requests interleave, at most one of them gets tokens for one authorization code.", "quantifier": "every number of concurrent requests and every interleaving of their storage accesses", "why_tests_cant": "the schedule space is infinite and the race window is between two storage calls", "anchors": ["server/services/token/grant_authorization_code.go:authorizationCode"]}
{"id": "C04", "title": "PKCE and redirect_uri gate every code redemption", "statement": "If a token request with grant_type=authorization_code succeeds then the stored authorization used method S256, base64url(sha256(code_verifier)) equals its code_challenge, the request's redirect_uri equals the authorized one byte for byte and is registered for the client, and the verifier is 43 to 128 bytes long.", "quantifier": "every request, stored authorization, hash function, clock and failure pattern", "why_tests_cant": "the property ranges over all verifier, challenge and URI strings", "anchors": ["server/services/token/grant_authorization_code.go:authorizationCode"]}
{"id": "C05", "title": "Tokens from a code carry exactly what was authorized", "statement": "Tokens issued for a code carry the subject, scope and audience of the authorization stored for that code, the issuer of the request and the requesting client; a refresh token is issued only if the authorized scope asks for offline_access and an access token only if it asks for openid; access and refresh token share the same key confirmation.", "quantifier": "every stored authorization and request, every scope string", "why_tests_cant": "depends on all scope strings and all session contents", "anchors": ["server/services/token/grant_authorization_code.go:authorizationCode", "server/services/token/generator.go"]}
{"id": "C06", "title": "An authorization code only works for the client it was issued to", "statement": "If a code redemption succeeds, the client redeeming the code is the client named in the authorization request the code was issued for.", "quantifier": "every pair of clients and every stored authorization", "why_tests_cant": "a cross-client attack needs an adversarially chosen pair of registrations", "anchors": ["server/services/token/grant_authorization_code.go:authorizationCode", "server/services/authorization/service.go:Authorize"]}
{"id": "C07", "title": "Authorization codes and pushed requests expire after 60 seconds", "statement": "A code (or request_uri) whose registration is more than 60 seconds old is never accepted, and until then, if not consumed, it is retrievable with the value that was registered.", "quantifier": "every registration and lookup time, every history in between", "why_tests_cant": "time is unbounded; tests only sleep a little", "anchors": ["server/storage/inmemory/authorization_code_session.go", "server/storage/inmemory/authorization_request.go"]}
{"id": "C08", "title": "Refresh is only for the owning client and a live refresh token", "statement": "If a token request with grant_type=refresh_token succeeds then the presented value denotes, for that issuer, a stored token of type refresh, status active, not past its expiry, issued to the requesting client; the tokens returned keep its issuer, subject, scope, audience and key confirmation.", "quantifier": "every request, token store content, clock and failure pattern", "why_tests_cant": "ranges over all store contents", "anchors": ["server/services/token/grant_refresh_token.go:refreshToken"]}
{"id": "C09", "title": "A refresh token is invalidated when it is used", "statement": "After a successful refresh, the presented refresh token can never be used again.", "quantifier": "every history after the refresh", "why_tests_cant": "needs all continuations of the history", "anchors": ["server/services/token/grant_refresh_token.go:refreshToken"]}
{"id": "C10", "title": "Revocation is permanent", "statement": "After a successful revocation of a token, in every later history no request is served on the strength of that token (refresh, exchange) and introspection never reports it active, as long as newly created tokens do not reuse its identifier or value.", "quantifier": "every history after the revocation, including arbitrary interleavings of storage steps", "why_tests_cant": "needs all continuations of the history", "anchors": ["server/services/token/revoke.go:Revoke", "server/storage/inmemory/token.go:Revoke"]}
{"id": "C11", "title": "Only the owner revokes a token", "statement": "A revocation request changes the status only of tokens issued to the requesting client.", "quantifier": "every client, token and store", "why_tests_cant": "cross-client behaviour over all stores", "anchors": ["server/services/token/revoke.go:Revoke"]}
{"id": "C12", "title": "Token exchange needs a live access token and keeps its subject", "statement": "If a token exchange succeeds then the subject token is, for that issuer, a stored access token, active and not past its expiry; the new token has the same subject, issuer and key confirmation, is issued to the requesting client and expires 60 seconds after issue.", "quantifier": "every request, store content, clock and failure pattern", "why_tests_cant": "ranges over all store contents and requests", "anchors": ["server/services/token/grant_token_exchange.go"]}
{"id": "C13", "title": "Token exchange does not widen scope", "statement": "Every scope of a token obtained by exchange is a scope of the subject token.", "quantifier": "every subject token and requested scope string", "why_tests_cant": "universally quantified over scope strings", "anchors": ["server/services/token/grant_token_exchange.go:tokenExchangeAccessToken"]}
{"id": "C14", "title": "Device tokens need the user's approval", "statement": "If a device_code token request succeeds then the device session was approved by a user for exactly the subject of the token, before its expiry, the session was started by the requesting client, and the token's scope is the one requested by the device.", "quantifier": "every history, clock, client and storage that stamps sessions on registration", "why_tests_cant": "needs induction over histories of start / approve / poll requests", "anchors": ["server/services/token/grant_device_code.go:deviceCode", "server/services/device/service.go:Validate"]}
{"id": "C15", "title": "An approved device obtains tokens", "statement": "If a device session is started and approved by a user within its lifetime then polling with the device code before it expires yields an access token.", "quantifier": "every history and clock", "why_tests_cant": "liveness over all request parameters and times", "anchors": ["server/services/device/service.go:Authorize", "server/services/token/grant_device_code.go:deviceCode"]}
{"id": "C16", "title": "A device code yields tokens at most once", "statement": "After a successful device_code token request the same device code is refused.", "quantifier": "every later history", "why_tests_cant": "needs all continuations", "anchors": ["server/services/token/grant_device_code.go:deviceCode", "server/storage/inmemory/device_code_session.go"]}
{"id": "C17", "title": "Introspection tells the truth", "statement": "Introspection of a value answers with status active, and the metadata given at issue, exactly when that value was issued for that issuer and not revoked since; a value never issued is answered with status unknown and no metadata.", "quantifier": "every history of requests and every presented value", "why_tests_cant": "needs induction over histories and all strings", "anchors": ["server/services/token/introspection.go:Introspect", "server/storage/inmemory/token.go"]}
{"id": "C18", "title": "A failed token request hands out no token", "statement": "A token request that returns an error carries no access, refresh or ID token in its response.", "quantifier": "every request, state, clock, generator output and storage failure at any call", "why_tests_cant": "failure points times inputs", "anchors": ["server/services/token/service.go:Token", "server/services/token/grant_device_code.go:deviceCode", "server/services/token/grant_token_exchange.go"]}
{"id": "C19", "title": "Every failure carries a public error and never a panic", "statement": "Every request to the token, introspection, revocation, authorization and device services either succeeds or returns a public error object; no request makes a service dereference nil.", "quantifier": "every request and failure pattern", "why_tests_cant": "failure points times inputs", "anchors": ["server/services/token/revoke.go:Revoke", "server/services/token/grant_token_exchange.go:tokenExchangeAccessToken"]}
{"id": "C20", "title": "Token lifetimes are fixed", "statement": "Every access token in the store expires 3600 s after its issue (60 s for exchanged ones) and every refresh token 604800 s after its issue, and the issue time is the server clock at creation.", "quantifier": "every reachable store, under every interleaving", "why_tests_cant": "invariant over all histories", "anchors": ["server/services/token/generator.go", "server/services/token/grant_token_exchange.go"]}
{"id": "C21", "title": "Every token in the store is justified", "statement": "Under every interleaving of requests, every stored token with a subject descends from an authorization (code session or approved device session) for that subject that was registered earlier; no request forges a subject.", "quantifier": "every interleaving of any number of requests with any failures and crashes", "why_tests_cant": "invariant over all concurrent histories", "anchors": ["server/services/token/service.go", "server/services/authorization/service.go", "server/services/device/service.go"]}
{"id": "C22", "title": "Issuers are isolated", "statement": "A token, code or request_uri created for one issuer is never accepted for another issuer.", "quantifier": "every pair of issuers and values", "why_tests_cant": "adversarially chosen strings", "anchors": ["server/storage/inmemory/token.go:deriveValue", "server/storage/inmemory/authorization_code_session.go:deriveKey"]}
{"id": "C23", "title": "The token store behaves as a map", "statement": "After any sequence of create, revoke and delete calls, looking a token up by value or id returns the token last created under it and not deleted since, with status revoked exactly if it was revoked since.", "quantifier": "every sequence of store operations without identifier or value reuse", "why_tests_cant": "refinement over all operation sequences", "anchors": ["server/storage/inmemory/token.go"]}
{"id": "C24", "title": "Success means stored", "statement": "Every token in a successful token response can be introspected for the issuer of the request right away with the same metadata and status active, whatever storage failures happened on the way.", "quantifier": "every request and every failure pattern", "why_tests_cant": "failure points times inputs", "anchors": ["server/services/token/generator.go"]}
{"id": "C25", "title": "Authorize only issues codes for valid requests", "statement": "If Authorize succeeds then the effective request has a state of at least 32 bytes, a nonce of at least 8, challenge method S256 with a 43-byte challenge, a response type code or token, a well-formed redirect URI, and the named client exists and has the grant, response type, redirect URI and response mode registered; the stored session holds exactly the given subject and that request; the response echoes its state, redirect_uri and client_id.", "quantifier": "every request, registry, storage state and failure pattern", "why_tests_cant": "a conjunction over open-ended input", "anchors": ["server/services/authorization/service.go:Authorize", "server/services/authorization/service.go:validate"]}
{"id": "C26", "title": "Codes are only sent to a registered redirect URI", "statement": "If Authorize succeeds the redirect_uri of the response is, byte for byte, one of the redirect URIs registered for the client.", "quantifier": "every client registration and redirect URI string", "why_tests_cant": "all strings", "anchors": ["server/services/authorization/service.go:validateClientCapabilities", "sdk/types/string_array.go:Contains"]}
{"id": "C27", "title": "No offline access without consent", "statement": "If an authorization request asks for openid and offline_access without prompt=consent, no refresh token is ever issued for the resulting code.", "quantifier": "every scope string and every later history", "why_tests_cant": "all scope strings", "anchors": ["server/services/authorization/service.go:validate", "sdk/types/string_array.go:Remove"]}
{"id": "C28", "title": "A request_uri works once", "statement": "Once an authorization request was made with a request_uri, a later one with the same request_uri fails, unless it is registered again.", "quantifier": "every history of complete requests", "why_tests_cant": "induction over histories", "anchors": ["server/services/authorization/service.go:Authorize"]}
{"id": "C29", "title": "A pushed request is used as pushed and only by its own client", "statement": "A request can only be pushed by the client it names; an authorization made through a request_uri uses the pushed parameters and no parameter of the front-channel request.", "quantifier": "every front-channel request and pushed request", "why_tests_cant": "all request contents", "anchors": ["server/services/authorization/service.go:Register", "server/services/authorization/service.go:Authorize"]}
{"id": "C30", "title": "Generated request URIs are accepted", "statement": "Every request_uri produced by the default generator passes the default generator's own validation.", "quantifier": "every random string", "why_tests_cant": "all generator outputs", "anchors": ["sdk/generator/request_uri.go"]}
{"id": "C31", "title": "Response mode alias", "statement": "In a stored authorization the response mode is absent or one of query, fragment, form_post, query.jwt, fragment.jwt, form_post.jwt, where jwt has been replaced by query.jwt for response type code and fragment.jwt for token.", "quantifier": "every request", "why_tests_cant": "all mode strings", "anchors": ["server/services/authorization/service.go:validate"]}
{"id": "C32", "title": "private_key_jwt authenticates only the key holder", "statement": "If client authentication by private_key_jwt succeeds for a client then the assertion verified under a key of that client's registered key set, its iss and sub are that client's id, it has an audience and an id, and it is not past its expiry.", "quantifier": "every assertion, key set and clock", "why_tests_cant": "all assertions and signature behaviours", "anchors": ["server/clientauthentication/private_key_jwt.go:Authenticate"]}
{"id": "C33", "title": "A client assertion is for this server and used once", "statement": "An assertion is accepted only if this server is in its audience, and never twice.", "quantifier": "every assertion and history", "why_tests_cant": "all histories", "anchors": ["server/clientauthentication/private_key_jwt.go:Authenticate"]}
{"id": "C34", "title": "Client attestation authenticates the attested client", "statement": "If authentication by client attestation succeeds for a client, then a known attester vouched, by a signature under its registered keys, for a key bound to that client, and that key signed the proof.", "quantifier": "every attestation, proof, registry and clock", "why_tests_cant": "all tokens and registries", "anchors": ["server/clientauthentication/client_attestation.go"]}
{"id": "C35", "title": "DPoP verification is sound", "statement": "If DPoP verification succeeds for a method and URL then the proof is typed as DPoP, is signed by the key embedded in it, names exactly that method and URL, was issued within 15 seconds of the server clock and carries an id that had not been registered; the returned thumbprint is that of the embedded key.", "quantifier": "every proof, method, URL, clock and proof-cache state", "why_tests_cant": "all proofs", "anchors": ["sdk/dpop/verifier.go"]}
{"id": "C36", "title": "A DPoP proof is accepted at most once by sequential requests", "statement": "In any sequence of verifications with a non-decreasing clock and the in-memory proof cache, no two verifications accept the same proof.", "quantifier": "every sequence of verifications", "why_tests_cant": "needs the time window arithmetic against cache expiry for all sequences", "anchors": ["sdk/dpop/verifier.go", "server/storage/inmemory/proof.go"]}
{"id": "C37", "title": "A DPoP proof is accepted at most once under concurrency", "statement": "However the steps of concurrent verifications of the same proof interleave, at most one accepts.", "quantifier": "every interleaving", "why_tests_cant": "schedule space", "anchors": ["sdk/dpop/verifier.go"]}
{"id": "C38", "title": "DPoP binds the access token", "statement": "If verification is asked to check an access token then success implies that the proof carries the hash of exactly that token and, when a confirmation is given, that the proof key's thumbprint equals it.", "quantifier": "every proof and token", "why_tests_cant": "all strings", "anchors": ["sdk/dpop/verifier.go"]}
{"id": "C39", "title": "Constant-time comparison is equality", "statement": "SecureCompare and SecureCompareString return true exactly when their arguments are equal.", "quantifier": "every pair of byte strings of any length, including lengths beyond 2^31", "why_tests_cant": "unbounded lengths, including length wrap-around", "anchors": ["sdk/types/compare.go"]}
{"id": "C40", "title": "String array laws", "statement": "Contains is membership up to case folding; AddIfNotContains makes the item contained and keeps all others; Remove deletes exactly the first occurrence and keeps order; HasOneOf and HasAll are 'some' and 'all' over the given items (HasAll of no items is false).", "quantifier": "every array and item list", "why_tests_cant": "all lists", "anchors": ["sdk/types/string_array.go"]}
{"id": "C41", "title": "Padded base62 round trip", "statement": "Parsing the padded base62 form of any byte string of length n with target length n returns it, and the encoding never exceeds its declared width.", "quantifier": "every byte string of the two lengths used", "why_tests_cant": "2^128 and 2^352 values", "anchors": ["sdk/token/verifiable/helpers.go"]}
{"id": "C42", "title": "Verifiable token round trip", "statement": "A token produced by a verifiable-UUID generator is accepted by the verifier with the same secret and prefix and gives back the embedded UUID.", "quantifier": "every UUID, nonce, secret, prefix", "why_tests_cant": "all random values", "anchors": ["sdk/token/verifiable/uuid.go"]}
{"id": "C43", "title": "Verifiable tokens cannot be forged or relabelled", "statement": "Every token accepted by Extract carries a MAC that equals the MAC, under the generator's secret, of that UUID, nonce and prefix; a token generated for another prefix is rejected unless the MACs collide.", "quantifier": "every input string", "why_tests_cant": "all strings", "anchors": ["sdk/token/verifiable/uuid.go"]}
{"id": "C44", "title": "Verifying a token never crashes", "statement": "Extract returns a value or an error for every input string.", "quantifier": "every input string", "why_tests_cant": "all strings", "anchors": ["sdk/token/verifiable/uuid.go:Extract", "sdk/token/verifiable/helpers.go:parsePaddedBase62"]}
{"id": "C45", "title": "A verifiable token has one spelling", "statement": "Two different strings are never both accepted as the same token.", "quantifier": "every pair of strings", "why_tests_cant": "all strings", "anchors": ["sdk/token/verifiable/uuid.go"]}
{"id": "C46", "title": "Generated PKCE pairs work", "statement": "A generated verifier is 128 characters and its challenge 43 characters of the base64url alphabet, so that a request using them passes the authorization and token endpoint checks; the SDK's own Validate accepts exactly the pairs whose challenge is the hash of the verifier.", "quantifier": "every random draw", "why_tests_cant": "2^768 random values", "anchors": ["sdk/pkce/verifier.go", "server/services/token/grant_authorization_code.go"]}
{"id": "C47", "title": "base64url round trip", "statement": "Unpadded base64url decoding inverts encoding for every byte string, and encoded length is ceil(4n/3).", "quantifier": "every byte string", "why_tests_cant": "all byte strings", "anchors": ["sdk/pkce/verifier.go", "server/services/token/grant_authorization_code.go"]}
{"id": "C48", "title": "JARM responses decode to what was encoded", "statement": "Decoding, for the right audience and before expiry, the claims of an encoded authorization response gives back its code, state and issuer; an encoded error gives back that error.", "quantifier": "every response and audience", "why_tests_cant": "all strings", "anchors": ["sdk/jarm/encoder.go", "sdk/jarm/decoder.go"]}
{"id": "C49", "title": "JARM decoding only accepts responses for this client", "statement": "If decoding yields a code then the response was typed as JARM, verified, has an issuer, names the given audience and is not expired; the same holds for error responses.", "quantifier": "every response", "why_tests_cant": "all claims", "anchors": ["sdk/jarm/decoder.go"]}
{"id": "C50", "title": "Pairwise subjects", "statement": "The pairwise subject is a function of salt, sector and subject; distinct (sector, subject) pairs give distinct identifiers unless the hash collides; blank subjects are rejected.", "quantifier": "every salt, sector and subject", "why_tests_cant": "all strings", "anchors": ["sdk/pairwise/hash.go"]}
{"id": "C51", "title": "Generated codes have the advertised format", "statement": "Device, authorization and user codes have their documented length and alphabet and pass their own validation.", "quantifier": "every random draw", "why_tests_cant": "all draws", "anchors": ["sdk/generator"]}
{"id": "C52", "title": "Introspection discloses claims only for usable tokens", "statement": "The introspection document is active exactly when the token is stored as active, not before its nbf and not after its exp, and holds no other claim when inactive.", "quantifier": "every token and clock", "why_tests_cant": "all tokens and times", "anchors": ["sdk/token/introspection.go", "sdk/token/helpers.go"]}
{"id": "C53", "title": "Issued JWT claims are well formed", "statement": "If the access or refresh token generator emits claims then issuer, subject, audience, client_id and scope are present, iat <= nbf <= exp, iat is not in the future and the lifetime is at most two hours (14 days for refresh tokens); the key confirmation of the token is carried.", "quantifier": "every token meta and clock", "why_tests_cant": "all metas", "anchors": ["sdk/token/access_token.go", "sdk/token/refresh_token.go"]}
{"id": "C54", "title": "Signature verification uses a proper key", "statement": "A JWT is accepted only if one of the keys of the key set that is not an encryption key and that matches the token's key id verifies it, and if any such key verifies it then it is accepted.", "quantifier": "every key set and token", "why_tests_cant": "all key sets", "anchors": ["sdk/token/jwt/verifier.go", "sdk/jwk/signature.go"]}
{"id": "C55", "title": "Client JWKS cache", "statement": "The client serves a cached key set only until its expiry and refetches afterwards.", "quantifier": "every sequence of calls and clocks", "why_tests_cant": "all histories", "anchors": ["client/http.go:PublicKeys"]}
{"id": "C56", "title": "The resource server enforces scope, age and assurance", "statement": "A request passes the resource server middleware only if it carries an active token, of the right kind (bearer or DPoP-bound), whose authentication age and context meet the requirement.", "quantifier": "every request and token", "why_tests_cant": "all requests", "anchors": ["examples/resourceserver/middleware.go"]}
{"id": "C57", "title": "The token endpoint honours DPoP-bound clients", "statement": "A client registered as requiring DPoP-bound tokens never receives a token without key confirmation from the token endpoint, and the confirmation is that of the verified proof.", "quantifier": "every HTTP request and client", "why_tests_cant": "all requests", "anchors": ["examples/authorizationserver/handlers/token.go"]}
{"id": "C58", "title": "Client authentication middleware", "statement": "A request reaches the token endpoint handlers only with a client that is public and named by id or that authenticated with an assertion.", "quantifier": "every HTTP request and registry", "why_tests_cant": "all requests", "anchors": ["examples/authorizationserver/middleware/client_auth.go"]}
{"id": "C59", "title": "Error objects", "statement": "An error built for a condition has that condition's code, carries the given state if and only if it is non-empty, and building never changes the code.", "quantifier": "every state string and builder call sequence", "why_tests_cant": "all strings", "anchors": ["sdk/rfcerrors/builder.go", "sdk/rfcerrors/errors.go"]}
{"id": "C60", "title": "Crashes cannot resurrect a code", "statement": "If a token request stops at any point (crash, timeout) after its session was deleted, the code stays unusable; if it stops before, no token has been created by it.", "quantifier": "every crash point of every request in every interleaving", "why_tests_cant": "all crash points", "anchors": ["server/services/token/grant_authorization_code.go:authorizationCode"]}
{"id": "C61", "title": "The client reads what the introspection endpoint writes", "statement": "The document of the introspection endpoint gives the activity, client, scope, subject and key confirmation of the stored token, and the token returned by the SDK client's introspection has them. (Refuted for the SDK: it panics on every document, so a resource server that uses it admits nobody.)", "quantifier": "every stored token and clock", "why_tests_cant": "all tokens", "anchors": ["client/http.go:Introspect", "client/claims.go", "examples/authorizationserver/handlers/token_introspection.go", "api/oidc/token/v1/token.pb.json.go:UnmarshalJSON"]}
{"id": "C62", "title": "Token responses describe the issued token", "statement": "A successful token response carries the value, scope and remaining lifetime of a token that was stored for the authenticated client, the value of a stored refresh token if any, and the token type DPoP exactly when the token is bound to a key.", "quantifier": "every HTTP request and storage behaviour", "why_tests_cant": "all requests", "anchors": ["examples/authorizationserver/handlers/token.go"]}
{"id": "C63", "title": "Pushed authorization requests", "statement": "The PAR endpoint stores a request only for an authenticated client with an accepted DPoP proof and one of whose keys signed the request, that names this client, and what is stored is what was signed.", "quantifier": "every HTTP request and storage behaviour", "why_tests_cant": "all requests", "anchors": ["examples/authorizationserver/handlers/par.go", "sdk/jwsreq/decoder.go"]}
{"id": "C64", "title": "Only signed authorization requests give codes", "statement": "The authorization endpoint issues a code for a client only from a request signed with one of that client's keys, or pushed before, with the signed parameters.", "quantifier": "every HTTP request and storage behaviour", "why_tests_cant": "all requests", "anchors": ["examples/authorizationserver/handlers/authorization.go", "sdk/jwsreq/decoder.go"]}
{"id": "C65", "title": "No HTTP request crashes its handler", "statement": "Every HTTP request is answered without a panic.", "quantifier": "every HTTP history", "why_tests_cant": "all requests and histories", "anchors": ["examples/authorizationserver/handlers", "examples/authorizationserver/respond/helpers.go"]}
{"id": "C66", "title": "The requested response mode is honoured", "statement": "The authorization response is delivered by the response mode of the request.", "quantifier": "every authorization request", "why_tests_cant": "all requests", "anchors": ["examples/authorizationserver/handlers/authorization.go", "server/services/authorization/service.go"]}
{"id": "C67", "title": "Device authorization is for the authenticated client", "statement": "A device session is registered only for the client that authenticated.", "quantifier": "every HTTP request", "why_tests_cant": "all requests", "anchors": ["examples/authorizationserver/handlers/device_authorization.go"]}
{"id": "C68", "title": "Pairwise clients never see the user's own identifier", "statement": "A code for a client registered with pairwise subjects carries the pairwise identifier of the user for that client's sector.", "quantifier": "every HTTP history", "why_tests_cant": "all requests and registries", "anchors": ["examples/authorizationserver/handlers/authorization.go", "sdk/pairwise/hash.go"]}
{"id": "C69", "title": "Over HTTP a code gives tokens once", "statement": "If the token endpoint answered one request with tokens for a code, a later request with the same code gets tokens only if the code was handed out again since the first request came in.", "quantifier": "every HTTP history: any requests to any endpoints, interleaved at every storage operation, storage faults, time", "why_tests_cant": "ranges over all interleavings of all requests, faults and clock readings; a test runs one", "anchors": ["examples/authorizationserver/handlers/token.go", "oidc/const.go", "server/services/token/grant_authorization_code.go", "server/storage/inmemory/authorization_code_session.go"]}
{"id": "C70", "title": "Over HTTP tokens for a code go to the authorized client for what the user authorized", "statement": "If the token endpoint answers an authorization_code request with tokens, the sender authenticated as a registered client; at most a minute earlier a logged-in user sent an authorization request object signed by the client named in the URL that is stored under this code; the sender knows the PKCE verifier and the redirect URI; the access token carries exactly that user, audience and scope; the scope includes openid, and offline_access if there is a refresh token.", "quantifier": "every HTTP history from an empty store", "why_tests_cant": "ranges over all interleavings of all requests, faults and clock readings; a test runs one", "anchors": ["examples/authorizationserver/handlers/token.go", "examples/authorizationserver/handlers/authorization.go", "examples/authorizationserver/middleware/client_auth.go", "server/services/token/grant_authorization_code.go"]}
{"id": "C71", "title": "Over HTTP a revoked token stays unusable", "statement": "After the revocation endpoint answered success for a token, refresh requests with it get no tokens and store none, and introspection answers only active=false.", "quantifier": "every HTTP history in which generated identifiers and values are not repeated", "why_tests_cant": "ranges over all interleavings of all requests, faults and clock readings; a test runs one", "anchors": ["examples/authorizationserver/handlers/token_revocation.go", "examples/authorizationserver/handlers/token_introspection.go", "server/services/token/revoke.go", "server/services/token/grant_refresh_token.go"]}
{"id": "C72", "title": "Over HTTP introspection tells the truth and discloses nothing about unusable tokens", "statement": "The introspection endpoint answers authenticated clients only. For a stored, unrevoked token within its times the document lists the stored data of that token; in every other case it is active=false and nothing else.", "quantifier": "every fault-free HTTP history in which generated identifiers and values are not repeated", "why_tests_cant": "ranges over all interleavings of all requests, faults and clock readings; a test runs one", "anchors": ["examples/authorizationserver/handlers/token_introspection.go", "server/services/token/introspection.go"]}
{"id": "C73", "title": "Over HTTP device tokens need an approval by a logged-in user", "statement": "If the token endpoint answers a device_code request with tokens, the sender authenticated as the client named in a device authorization request; a logged-in user posted the user code of that session before it expired; the token is for this user and for the requested scope.", "quantifier": "every HTTP history from an empty store", "why_tests_cant": "ranges over all interleavings of all requests, faults and clock readings; a test runs one", "anchors": ["examples/authorizationserver/handlers/device_validation.go", "examples/authorizationserver/handlers/device_authorization.go", "examples/authorizationserver/handlers/token.go", "server/services/token/grant_device_code.go"]}
{"id": "C74", "title": "Over HTTP a pushed request is used once", "statement": "If the authorization endpoint sent a code for a request_uri, a later authorization with the same request_uri sends a code only if the URI was handed out again since.", "quantifier": "every HTTP history", "why_tests_cant": "ranges over all interleavings of all requests, faults and clock readings; a test runs one", "anchors": ["examples/authorizationserver/handlers/authorization.go", "examples/authorizationserver/handlers/par.go", "server/services/authorization/service.go"]}
{"id": "C75", "title": "Over HTTP a refresh gives what the refresh token stands for, to its client", "statement": "If the token endpoint answers a refresh_token request with tokens, the sender authenticated as the client of a stored, unrevoked, unexpired refresh token with that value, and the access token has its subject, audience, scope and key.", "quantifier": "every HTTP history in which generated identifiers and values are not repeated", "why_tests_cant": "ranges over all interleavings of all requests, faults and clock readings; a test runs one", "anchors": ["examples/authorizationserver/handlers/token.go", "server/services/token/grant_refresh_token.go"]}
{"id": "C76", "title": "Over HTTP every token with a subject goes back to that user's login", "statement": "Every token ever stored with a non-empty subject is preceded by a login: the user sent a signed authorization request, or posted a user code; and was known there under this subject.", "quantifier": "every HTTP history from an empty store", "why_tests_cant": "ranges over all interleavings of all requests, faults and clock readings; a test runs one", "anchors": ["examples/authorizationserver/handlers/authorization.go", "examples/authorizationserver/handlers/device_validation.go", "server/services/token"]}
{"id": "C77", "title": "Over HTTP a replaced refresh token is dead", "statement": "Once a refresh request was answered with a new refresh token, the old one gives no tokens.", "quantifier": "every HTTP history in which generated identifiers and values are not repeated", "why_tests_cant": "ranges over all interleavings of all requests, faults and clock readings; a test runs one", "anchors": ["examples/authorizationserver/handlers/token.go", "server/services/token/grant_refresh_token.go"]}
{"id": "C78", "title": "A client only gets tokens through grant types it registered", "statement": "Whenever a token request is answered with tokens, and whenever a token is stored, the client of the request is registered for the grant type of the request, and the token belongs to that client.", "quantifier": "every history of concurrent requests with storage faults, every client registry", "why_tests_cant": "ranges over all requests, registries and interleavings, including stored tokens whose request never finished", "anchors": ["server/services/token/grant_authorization_code.go", "server/services/token/grant_refresh_token.go", "server/services/token/grant_device_code.go", "server/services/token/grant_client_credentials.go", "server/services/token/grant_token_exchange.go"]}
{"id": "C79", "title": "Polling before approval answers authorization_pending", "statement": "A device that polls with its device code, in time and before anybody sends the user code, gets the error authorization_pending and no token.", "quantifier": "every history without storage faults in which nobody sends the user code", "why_tests_cant": "ranges over all interleavings with other flows and all polling times within the lifetime", "anchors": ["server/services/token/grant_device_code.go", "server/services/device/service.go", "server/storage/inmemory/device_code_session.go"]}
{"id": "C80", "title": "DPoP proofs made with the SDK are accepted by the server", "statement": "A proof made by the SDK for a method and URL is accepted by the verification of that method and URL within 15 seconds, unless its id was used before, and yields the thumbprint of the signing key.", "quantifier": "every key, method, URL, access token, id, clock reading and history of other requests", "why_tests_cant": "ranges over all keys, URLs, clock skews and interleavings", "anchors": ["sdk/dpop/prover.go", "sdk/dpop/verifier.go", "sdk/token/jwt/signer.go"]}
{"id": "C81", "title": "Every request is answered after a bounded number of its own steps", "statement": "A request to the services is answered after at most 13 of its own turns, and an HTTP request after at most 24, whatever the other requests, the clock and the storage do: no request waits for another one, and none loops.", "quantifier": "every request, every set of concurrent requests, every schedule, every storage fault and every clock", "why_tests_cant": "ranges over all schedules: a wait for another request or a retry loop only shows under particular interleavings", "anchors": ["server/services/token/service.go", "server/services/authorization/service.go", "server/services/device/service.go", "examples/authorizationserver/handlers/token.go"]}
{"id": "C82", "title": "A fresh code is redeemed", "statement": "When a user has authorized a client for a scope with openid, the client that redeems the code within 60 seconds, with the redirect URI and the PKCE verifier of its request, gets an access token, and a refresh token if it asked for offline_access with prompt=consent, unless somebody else redeems the code.", "quantifier": "every history without storage faults, every concurrent request, every code, verifier and moment within the minute", "why_tests_cant": "ranges over all interleavings with other requests and all histories before", "anchors": ["server/services/token/grant_authorization_code.go", "server/services/authorization/service.go", "server/storage/inmemory/authorization_code_session.go"]}
{"id": "C83", "title": "A live refresh token works", "statement": "A refresh token that was handed out, has not expired and has neither been revoked nor used gets its client a new access token.", "quantifier": "every history without storage faults in which nobody else uses up the token", "why_tests_cant": "ranges over all histories between the issuing and the use of the token", "anchors": ["server/services/token/grant_refresh_token.go", "server/storage/inmemory/token.go"]}
{"id": "C84", "title": "Client credentials work", "statement": "A confidential or credentialed client that registered the client_credentials grant and asks for a token at a valid issuer gets an access token and no refresh token.", "quantifier": "every history without storage faults, every concurrent request", "why_tests_cant": "ranges over all interleavings and all states of the stores", "anchors": ["server/services/token/grant_client_credentials.go", "server/services/token/service.go"]}
{"id": "C85", "title": "Approvals succeed", "statement": "A user who sends the user code of a device within its lifetime, before anybody else, is told that the device is approved.", "quantifier": "every history without storage faults, every moment within the lifetime", "why_tests_cant": "ranges over all interleavings with polls and with other device flows", "anchors": ["server/services/device/service.go", "server/storage/inmemory/device_code_session.go"]}
{"id": "C86", "title": "Valid authorization requests are accepted", "statement": "An authorization request with all required parameters, whose response type, response mode and redirect URI its client registered, is answered with a code for its state, redirect URI and client; pushed by that client, it is registered for 60 seconds.", "quantifier": "every request, client registry and history without storage faults", "why_tests_cant": "ranges over all parameter values and all states of the stores", "anchors": ["server/services/authorization/service.go:Authorize", "server/services/authorization/service.go:Register", "server/services/authorization/service.go:validate"]}
{"id": "C87", "title": "A pushed request is authorized", "statement": "The request_uri of a pushed request, followed by a user within 60 seconds at the same issuer and before anybody else, yields a code for the pushed state, redirect URI and client.", "quantifier": "every history without storage faults, every moment within the minute", "why_tests_cant": "ranges over all interleavings and on the stored request passing the validation a second time for all parameter values", "anchors": ["server/services/authorization/service.go", "server/storage/inmemory/authorization_request.go"]}
{"id": "C88", "title": "Introspection and revocation need a registered client", "statement": "Introspection and revocation answer without an error only when the request carries a client that is registered, a token and a valid issuer; and the token store is asked to revoke a token only on behalf of a registered client that revokes it or exchanges it as refresh token, whatever becomes of the request.", "quantifier": "every request, every history (in which the client storage does not answer nil without an error)", "why_tests_cant": "ranges over all requests, client registries and storage states, including requests that fail half-way", "anchors": ["server/services/token/introspection.go:Introspect", "server/services/token/revoke.go:Revoke", "server/services/token/grant_refresh_token.go"]}
{"id": "C89", "title": "A device authorization answer is backed by the store", "statement": "A successful device authorization was asked by a registered client that has the device grant; the device and user code come from the generators in this request and were stored, successfully, with the client, request, issuer, scope and audience of the request and without a subject or approval; polling interval 5 s, lifetime 120 s.", "quantifier": "every request, history and storage failure", "why_tests_cant": "ranges over all requests, registries and failures of the store", "anchors": ["server/services/device/service.go:Authorize", "server/storage/inmemory/device_code_session.go:Register"]}
{"id": "C90", "title": "A user code is approved once, by the subject that entered it", "statement": "Approval succeeds only for a complete form, with a user code that a device authorization registered and that is pending and not expired; it stores the session as approved by this very subject, all else unchanged, and withdraws the code; a second approval of the code, after the first, succeeds only if a device authorization got the same code in the meantime. (Two approvals at the same time may both succeed: refuted.)", "quantifier": "every history, interleaving and storage failure", "why_tests_cant": "ranges over all interleavings of device authorizations, approvals and polls", "anchors": ["server/services/device/service.go:Validate", "server/storage/inmemory/device_code_session.go"]}
{"id": "C91", "title": "The token store holds keyed hashes only", "statement": "Whatever token the store holds after any history carries, in place of its value, the keyed hash of the value of a token that was created.", "quantifier": "every history and storage failure", "why_tests_cant": "ranges over all histories of creations, revocations and failures", "anchors": ["server/storage/inmemory/token.go:Create", "server/storage/inmemory/token.go:deriveValue"]}
{"id": "C92", "title": "The shared random generator is atomic and deterministic", "statement": "Whatever goroutines share a generator, their calls take effect one after the other, in an order that respects which call was over before another began: the results are those of one goroutine making the calls in that order, and depend on the seed and this order only. As long as every method returns, every call can return. (Refuted beyond that: one call out of range, such as Intn(0), or a Shuffle whose function uses the generator, and no later call ever returns.)", "quantifier": "every underlying generator, set of goroutines and calls, and interleaving of their steps", "why_tests_cant": "ranges over all interleavings of lock, read, write and unlock steps of any number of goroutines", "anchors": ["sdk/randomness/locked_rand.go:LockedRand", "sdk/randomness/locked_rand.go:NewLockedRand", "sdk/randomness/global.go:NewReader"]}
{"id": "C93", "title": "A message survives its wire form", "statement": "Every message that a program can build (any of the 39 protobuf message types) marshals without a panic into bytes that unmarshal, into an empty message, to an equal message; so two different messages never have the same bytes. A message that was decoded from any bytes, with the fields its type does not know, marshals into bytes that decode to the same message. (Refuted for a oneof wrapper around a nil message: the choice is lost.)", "quantifier": "every message type, value and input", "why_tests_cant": "ranges over all values of 39 recursive message types and all byte strings", "anchors": ["api/oidc/flow/v1/flow_api_vtproto.pb.go:MarshalVT", "api/oidc/flow/v1/flow_api_vtproto.pb.go:UnmarshalVT", "api/oidc/client/v1/client_vtproto.pb.go:MarshalToSizedBufferVT", "api/oidc/token/v1/token_vtproto.pb.go:UnmarshalVT"]}
{"id": "C94", "title": "The announced size is the size", "statement": "MarshalVT fills exactly the buffer that SizeVT announces: for every value of every message type, whatever unknown fields it carries, the encoding has SizeVT bytes and the write never leaves the buffer.", "quantifier": "every message type and value", "why_tests_cant": "ranges over all values; a wrong size constant shows for particular lengths only", "anchors": ["api/oidc/client/v1/client_vtproto.pb.go:SizeVT", "api/oidc/client/v1/client_vtproto.pb.go:MarshalVT"]}
{"id": "C95", "title": "Decoding any bytes ends in a value or an error", "statement": "UnmarshalVT of any bytes into any value of any message type terminates and does not panic: it returns an error or leaves a value of the type. (Refuted for a destination that holds a oneof wrapper around nil: bytes that decode well into an empty message make it panic.)", "quantifier": "every message type, destination and byte string", "why_tests_cant": "ranges over all byte strings, including hostile lengths, nesting and groups", "anchors": ["api/oidc/resource/v1/resource_vtproto.pb.go:UnmarshalVT", "api/oidc/resource/v1/resource_vtproto.pb.go:skip"]}
{"id": "C96", "title": "Concatenated encodings merge", "statement": "If some bytes decode into a message, then decoding them followed by more bytes is the same as decoding the rest into the outcome of the first: decoding can be resumed, and the encoding of an update can be appended to that of a message.", "quantifier": "every message type, destination, and pair of byte strings", "why_tests_cant": "ranges over all pairs of byte strings and their split points", "anchors": ["api/oidc/resource/v1/resource_vtproto.pb.go:UnmarshalVT"]}
{"id": "C97", "title": "Equal messages have equal bytes, and entries are read within their bounds (refuted)", "statement": "Two encodings of equal messages are equal; and what is decoded for a map entry depends on the bytes of the entry alone. Both are false: the entries of a map are written in the order in which Go happens to iterate over it, and the strings of a map entry are checked against the end of the input instead of the end of the entry, so bytes that follow the entry become part of its value and are decoded a second time as fields.", "quantifier": "every message with a map, every input", "why_tests_cant": "the iteration order is random; the overrun needs inputs no encoder produces", "anchors": ["api/oidc/client/v1/client_vtproto.pb.go:ClientMeta.MarshalToSizedBufferVT", "api/oidc/client/v1/client_vtproto.pb.go:ClientMeta.UnmarshalVT"]}
{"id": "C98", "title": "The SDK client gets a token, and anyone can have it introspected", "statement": "A registered confidential client that uses the SDK with its registered key, sends the assertion while it is valid (30 s) and may use the client-credentials grant gets an access token from the token endpoint; whoever asks the introspection endpoint with the SDK from one second after its issue until an hour after, and before it is revoked, is answered that it is active, with its scope and the client it was issued to, and the SDK returns that. (Refuted for the last step: the SDK panics on the answer; for the first second of the token's life; and for a DPoP-bound client, which never gets a token with the SDK.)", "quantifier": "every HTTP server, registry, schedule of concurrent HTTP requests and ticks without storage faults, every client, key and assertion", "why_tests_cant": "ranges over all interleavings with other requests and over all times between issue and introspection", "anchors": ["client/http.go:Assertion", "client/http.go:ClientCredentials", "client/http.go:Introspect", "examples/authorizationserver/handlers/token.go", "examples/authorizationserver/handlers/token_introspection.go", "examples/authorizationserver/middleware/client_auth.go"]}
{"id": "C99", "title": "A refresh token works for a week", "statement": "A refresh token handed out by the token endpoint is accepted for a week: when the client it was given to presents it, in a properly authenticated request with a valid DPoP proof (or without one, if the client is not bound to DPoP), and nobody else has revoked or used it, the answer carries a new access token of the type that fits.", "quantifier": "every HTTP server, registry, schedule of concurrent HTTP requests and ticks without storage faults, every way the refresh token was obtained", "why_tests_cant": "ranges over all interleavings and over every time within the week", "anchors": ["examples/authorizationserver/handlers/token.go", "server/services/token/grant_refresh_token.go", "server/storage/inmemory/token.go"]}
{"id": "C100", "title": "A code that was handed out is redeemed", "statement": "When the authorization endpoint has handed out a code for an openid request, and within a minute the same client presents it at the token endpoint with the redirect URI of the request and the verifier of its challenge, authenticated and with a valid DPoP proof (or without one, if it is not bound to DPoP), then it gets an access token - and a refresh token if the request asked for offline access with consent - provided nobody else presents the code and the generator did not return it twice.", "quantifier": "every HTTP server, registry, schedule of concurrent HTTP requests and ticks without storage faults, every authorization request, pushed or not", "why_tests_cant": "ranges over all interleavings with other requests and over every time within the minute", "anchors": ["examples/authorizationserver/handlers/authorization.go", "examples/authorizationserver/handlers/token.go", "server/services/authorization/service.go", "server/services/token/grant_authorization_code.go"]}
{"id": "C101", "title": "A proper authorization request is answered with a code", "statement": "When a user logs in at the authorization endpoint with a link that carries a request signed by a registered client - well formed, with a redirect URI, response type and response mode the client registered - the browser is sent to that redirect URI with a code, the state of the request and the issuer, and the code stands for this request and this user.", "quantifier": "every HTTP server, registry, schedule of concurrent HTTP requests and ticks without storage faults, every client, user and request", "why_tests_cant": "ranges over all requests and interleavings", "anchors": ["examples/authorizationserver/handlers/authorization.go", "server/services/authorization/service.go", "sdk/jarm", "examples/authorizationserver/middleware/basic_auth.go"]}
{"id": "C102", "title": "A proper pushed request is accepted", "statement": "A client that pushes a well-formed and permitted request signed with its registered key, authenticated and with a fresh DPoP proof whose id nobody has used, is given a request URI, good for 60 seconds.", "quantifier": "every HTTP server, registry, schedule of concurrent HTTP requests and ticks without storage faults, every client, request and proof", "why_tests_cant": "ranges over all requests, proofs and interleavings", "anchors": ["examples/authorizationserver/handlers/par.go", "server/services/authorization/service.go", "sdk/dpop/verifier.go"]}
{"id": "C103", "title": "A pushed request is followed within a minute", "statement": "When within a minute of the push a user logs in with a link of the client that carries this request URI, and nobody else has followed it, the browser is sent to the redirect URI of the pushed request with a code and the state of the pushed request.", "quantifier": "every HTTP server, registry, schedule of concurrent HTTP requests and ticks without storage faults, every pushed request", "why_tests_cant": "ranges over all interleavings with other requests and over every time within the minute", "anchors": ["examples/authorizationserver/handlers/par.go", "examples/authorizationserver/handlers/authorization.go", "server/services/authorization/service.go", "server/storage/inmemory/authorization_request.go"]}
{"id": "C104", "title": "The device flow works end to end over HTTP", "statement": "A device that asks for codes for a client that may use the device flow gets them; when within two minutes a logged-in user posts the user code, and nobody else does, the approval is accepted; when the device then polls with the device code, as that client and with a valid proof of possession if the client needs one, it gets tokens.", "quantifier": "every HTTP server, registry, schedule of concurrent HTTP requests and ticks without storage faults", "why_tests_cant": "ranges over all interleavings with other requests and over every time within the two minutes", "anchors": ["examples/authorizationserver/handlers/device_authorization.go", "examples/authorizationserver/handlers/device_validation.go", "examples/authorizationserver/handlers/token.go", "server/services/device/service.go", "server/services/token/grant_device_code.go", "server/storage/inmemory/device_code_session.go"]}
{"id": "C105", "title": "The in-memory token store is safe for concurrent use", "statement": "When goroutines use the token store concurrently, the results are those of some order of whole method calls in which a call that returned before another began comes first; and a lookup that begins after Revoke has returned shows the token as revoked.", "quantifier": "every number of goroutines, sequence of method calls and interleaving of their steps", "why_tests_cant": "ranges over all interleavings of the steps inside the methods", "anchors": ["server/storage/inmemory/token.go: tokenStorage", "server/storage/api.go: Token"]}
{"id": "C106", "title": "A client attested by the attestation server of the examples gets a token", "statement": "A client that has its key attested by the attestation server, proves possession of that key and sends both to the token endpoint within half a minute is given an access token of its own, and nobody is given a token of a client that the attestation does not name.", "quantifier": "every history of the authorization server, attested key, clock and registry", "why_tests_cant": "ranges over all concurrent histories, clocks and registries; three programs are involved", "anchors": ["examples/attestationserver/main.go: signHandler", "examples/attestationclient/main.go: getAttestation, computeClientPOP, getToken", "server/clientauthentication/client_attestation.go", "examples/authorizationserver/main.go: main", "examples/authorizationserver/middleware/client_auth.go: ClientAuthentication"]}
{"id": "C107", "title": "The metadata endpoint signs what it serves", "statement": "Every metadata document that the endpoint serves carries, as signed_metadata, the server's signature over this very metadata without a signature, however many requests are handled at once.", "quantifier": "every schedule of any number of concurrent requests, with a signer that may fail at any time", "why_tests_cant": "the requests share one document; what one of them serves depends on how it is interleaved with the others", "anchors": ["examples/authorizationserver/handlers/metadata.go: Metadata", "sdk/token/jwt/signer.go: Serialize"]}
{"id": "C108", "title": "The SDK client finds the server it was made for", "statement": "Creating an SDK client for an issuer fetches the issuer's metadata and a key set that is not empty or expired, or fails; with the authorization server of the examples its requests then go to the token and introspection endpoints of that server; metadata of another issuer is refused, and no answer crashes the client.", "quantifier": "every issuer, every answer of the network to the metadata and key set requests, every clock", "why_tests_cant": "ranges over all documents that a server could send", "anchors": ["client/http.go: HTTP, PublicKeys, ClientCredentials, Introspect, Assertion", "examples/authorizationserver/handlers/metadata.go: Metadata", "examples/authorizationserver/main.go: main"]}
{"id": "C109", "title": "A signed authorization request decodes to what the client signed", "statement": "Decoding an encoded authorization request gives back every one of its members; a request that decodes has no claim that is not a member of the request, and nothing in it that is not a claim of the token; so no token of another kind (assertion, proof, access token) passes as a request.", "quantifier": "every authorization request, signer, verifier and set of claims, whatever the order of the claims", "why_tests_cant": "ranges over all requests and claims; a test encodes a few", "anchors": ["sdk/jwsreq/encoder.go: Encode", "sdk/jwsreq/decoder.go: Decode", "proto/oidc/flow/v1/flow.proto: AuthorizationRequest"]}
{"id": "C110", "title": "The authorization code flow works from login to introspection", "statement": "When a logged-in user follows a client's link with a proper authorization request that asks for openid, and the client redeems the code it is sent within a minute with the right verifier and redirect URI, it is given an access token of no more than the scope it asked for; whoever authenticates and asks the server about this token between a second and an hour later, if it was not revoked, learns that it is active, who the user is, and its client, audience, scope and issuer.", "quantifier": "every HTTP history without storage faults from an empty store in which no token or code is reused, whatever else is going on; every client, user, request and any way of authenticating", "why_tests_cant": "ranges over all interleavings with all other requests; a test runs one flow on its own", "anchors": ["examples/authorizationserver/handlers/authorization.go: Authorization", "examples/authorizationserver/handlers/token.go: Token", "examples/authorizationserver/handlers/token_introspection.go", "server/services/authorization/service.go", "server/services/token/grant_authorization_code.go"]}
{"id": "C111", "title": "An object signed for one purpose is refused for every other", "statement": "What the SDK signs as a DPoP proof, an authorization response, an authorization request, a client assertion, an access or refresh token or an introspection document is accepted only as what it was made for: no reader of the server or the SDK takes it for a proof, response, request, client assertion, client attestation or proof of possession if it is something else, whichever keys are shared.", "quantifier": "every object that the SDK signs with any key and type of its builders, and every reader with any keys, stores and clock", "why_tests_cant": "ranges over all pairs of objects and readers and all contents; the readers tell the objects apart by members that they happen to require", "anchors": ["sdk/token/api.go: Serializer", "sdk/token/jwt/signer.go: Serialize", "sdk/dpop/verifier.go: Verify", "sdk/jarm/decoder.go: Decode", "sdk/jwsreq/decoder.go: Decode", "server/clientauthentication/private_key_jwt.go: Authenticate", "server/clientauthentication/client_attestation.go: Authenticate"]}
{"id": "C112", "title": "Only identified private keys sign, in every format", "statement": "A serializer for JWT, CWT or PASETO returns a signed object only if its provider gave it a private key with an identifier; the object then verifies with that key and carries, all signed, the identifier, the purpose of the serializer followed by the format, and the claims it was given. In every other case it returns an error and does not crash. Objects made for different purposes are told apart.", "quantifier": "every format, purpose, key provider answer, algorithm, claims and behaviour of the signing libraries that writes what it is given", "why_tests_cant": "ranges over all providers, keys, claims and library failures; the tests of the repository cover a few keys per format, and none for CWT", "anchors": ["sdk/token/jwt/signer.go:Serialize", "sdk/token/jwt/builders.go", "sdk/token/cwt/signer.go:Serialize", "sdk/token/cwt/builders.go", "sdk/token/paseto/signer.go:Serialize"]}
{"id": "C113", "title": "Registered clients are found as registered", "statement": "After a client is registered, Get with the identifier it was given returns it, with that identifier and every other field as given, for as long as nobody changes the record or draws the identifier again; nothing else is ever found. GetByName returns a client of that name if there is one, always the same.", "quantifier": "every registry, history of registrations and changes to records by their holders, identifier, name, case folding table and iteration order of the map", "why_tests_cant": "ranges over all histories, aliases of records and map iteration orders", "anchors": ["server/storage/inmemory/client.go:Clients", "server/storage/inmemory/client.go:Get", "server/storage/inmemory/client.go:GetByName", "server/storage/inmemory/client.go:Register"]}
{"id": "C114", "title": "The flow with a pushed request works from the push to introspection", "statement": "A client that pushes a proper authorization request is given a request URI; a user who logs in and follows it within a minute is sent back, to the address and with the state that were pushed, with a code; the client redeems it within a minute and is given an access token for no more scope than was pushed; and for the next hour whoever asks learns the user's subject, the client, the audience that was pushed and the scope of the token.", "quantifier": "every server configuration, every interleaving with any number of other HTTP requests, every user, client and request, fault-free stores", "why_tests_cant": "ranges over all histories of concurrent HTTP requests", "anchors": ["examples/authorizationserver/handlers/par.go", "examples/authorizationserver/handlers/authorization.go", "examples/authorizationserver/handlers/token.go", "examples/authorizationserver/handlers/token_introspection.go", "server/services/authorization/service.go", "server/services/token/authorization_code.go"]}
{"id": "C115", "title": "Forms and redirects are read as they were written", "statement": "Whatever values a client writes into a form, the server reads those values under those names and nothing else. The redirect that answers an authorization request leads to the registered redirect URI, and what the client reads from it is the signed response, byte for byte; parameters that the redirect URI already had are still there.", "quantifier": "every form with distinct names, every byte string as name or value, every HTTP history and authorization request, every redirect URI", "why_tests_cant": "ranges over all byte strings and HTTP histories", "anchors": ["examples/authorizationserver/handlers/authorization.go:responseTypeQueryJWT", "examples/authorizationserver/handlers/authorization.go:responseTypeFragmentJWT", "examples/authorizationserver/handlers/authorization.go:responseTypeCode", "client/http.go:ClientCredentials", "client/http.go:Introspect"]}
{"id": "C116", "title": "Responses carry the headers that keep them safe", "statement": "Every response of the endpoints that users visit forbids framing, content sniffing, scripts, referrers and shared caches; every error says that it is a JSON document and every response with status 401 says how to authenticate; every response that carries a token or what is known of one forbids caches to store it.", "quantifier": "every server configuration, every HTTP history and request, every store behaviour", "why_tests_cant": "ranges over all requests and histories; the order of the middleware decides which responses get the headers", "anchors": ["examples/authorizationserver/middleware/secure_headers.go:SecurityHaders", "examples/authorizationserver/middleware/adapter.go:Adapt", "examples/authorizationserver/middleware/basic_auth.go:BasicAuthentication", "examples/authorizationserver/middleware/client_auth.go:ClientAuthentication", "examples/authorizationserver/respond/helpers.go", "examples/authorizationserver/main.go"]}
{"id": "C117", "title": "Token values are never used twice", "statement": "With the token generators of the package, no identifier and no storage slot is used for two tokens, whatever requests run at the same time: access and refresh tokens never share a value, values made from different UUIDs differ whatever the keys and nonces, no issuer and value can be mistaken for another issuer and value, and the verifier with the generator's key accepts every value and recovers its UUID. A verifier with another key accepts a value only if the codes collide.", "quantifier": "every key, UUID, nonce and token; every history of the services and of the HTTP server whose UUIDs and random identifiers do not repeat and whose storage hash does not collide", "why_tests_cant": "ranges over all interleavings of requests and all UUIDs; a generator used twice, or an identifier drawn once for two tokens, shows only under particular schedules", "anchors": ["sdk/token/verifiable/verifiable.go:tokenGenerator.Generate", "sdk/token/verifiable/uuid.go:Generate", "server/services/token/generator.go:generateAccessToken", "server/services/token/generator.go:generateRefreshToken", "server/services/token/grant_token_exchange.go:tokenExchangeAccessToken", "server/storage/inmemory/token.go:deriveKey", "examples/authorizationserver/main.go"]}
{"id": "C118", "title": "The server supports what its metadata announces, and nothing else", "statement": "Grants, client authentication methods, code challenge methods, signing algorithms, subject types and response types that the server acts upon are those in its metadata document, and those in the document work.", "quantifier": "every HTTP request, every interleaving of requests, every client registration and every JOSE library whose parser accepts only the algorithms it was given", "why_tests_cant": "a mismatch shows only for the values that no test sends; that a request with an announced value never succeeds is a claim about all requests and histories", "anchors": ["examples/authorizationserver/handlers/metadata.go:Metadata", "examples/authorizationserver/main.go", "examples/authorizationserver/handlers/token.go:Token", "examples/authorizationserver/handlers/par.go:PushedAuthorizationRequest", "examples/authorizationserver/handlers/authorization.go:Authorization", "examples/authorizationserver/middleware/client_auth.go:ClientAuthentication", "sdk/token/jwt/verifier.go:Parse", "server/services/authorization/service.go:validate"]}
{"id": "C119", "title": "A token value is sent to one request only", "statement": "No token value is carried by the responses to two HTTP requests, whatever requests run at the same time; within a response the access and the refresh token differ; and the token stored under a value that was sent is the one made while serving that very request.", "quantifier": "every history of HTTP requests in any interleaving, for every key, every sequence of UUIDs that does not repeat and every hash", "why_tests_cant": "ranges over all interleavings of requests that mint tokens; a value delivered twice shows only under particular schedules", "anchors": ["examples/authorizationserver/handlers/token.go:Token", "server/services/token/generator.go:generateAccessToken", "server/services/token/generator.go:generateRefreshToken", "sdk/token/verifiable/verifiable.go:tokenGenerator.Generate"]}
{"id": "C120", "title": "The key endpoint publishes the signing key and not its secret", "statement": "The response of the key endpoint never contains the secret of the signing key and does not depend on it; a client that fetches it, at any time, can verify with it everything that the server signs; a failure to get the keys is reported as such and does not crash the client.", "quantifier": "every key document, every sequence of fetches and clocks, every signed object and every JOSE library that signs and verifies consistently", "why_tests_cant": "independence from the secret compares all pairs of keys; that each fetched key set verifies each signed object ranges over all keys, objects and fetch sequences", "anchors": ["examples/authorizationserver/settings.go:keyProvider", "examples/authorizationserver/settings.go:keySetProvider", "examples/authorizationserver/handlers/jwks.go:JWKS", "client/http.go:PublicKeys", "sdk/token/jwt/signer.go:Serialize", "sdk/token/jwt/verifier.go:Claims"]}
{"id": "C121", "title": "Clients registered with the strict profile stay within it", "statement": "A client registered with the grant types and response types that the strict profile gives to its application type gets tokens only by those grants, authorization codes only if its type has that grant, and no tokens that its profile gives it no use for; the profile lists nothing that the server does not announce.", "quantifier": "every application type, every history of requests and every case folding that keeps the names of grants apart", "why_tests_cant": "ranges over all histories of requests by such clients", "anchors": ["server/profile/profile_strict.go:strictProfile", "server/profile/server.go:ApplicationType", "server/services/token/service.go:Token", "server/services/authorization/service.go:validateClientCapabilities"]}
