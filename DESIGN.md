# A Rocq model of zntrio/solid

`/repo` (Go) is modelled by hand, function by function, in `rocq/theories/*.v`.
`properties.jsonl` lists the properties, `MANIFEST.json` maps each to theorems.

## How the code is modelled

* **Strings** are Coq `string` (bytes). UTF-8 decoding, `strings.Fields`,
  `TrimSpace`, base64url, base62 are modelled exactly. `strings.EqualFold` is
  modelled on top of an arbitrary function giving the `unicode.SimpleFold` orbit.
* **Services are programs over calls** (`Prog.v`). A service function is a tree
  `prog A`: return, panic, or an external call (clock, random source, generator,
  storage operation) with a continuation for every answer: success, a nil value,
  `ErrNotFound`, another error. The same text is used for sequential executions,
  for interleavings of concurrent requests, for storage failures and for crashes.
* **Storage** (`Storage.v`) is the in-memory implementation of
  `server/storage/inmemory`: go-cache maps with expiry and a clock in nanoseconds,
  keyed by the hex blake2b digest of label, issuer and code. Every storage
  operation is one atomic step. Any operation may also fail before or after
  taking effect, or return nil: the environment chooses.
* **The system** (`System.v`) runs any number of requests. A schedule (a list of
  events: new request, one step of one request, clock tick) drives it, and a log
  records every step. "For every history" is "for every schedule"; a crash of a
  request is a request that never gets another step.
* **External functions** (sha256, blake2b, URL parsing, JOSE, random source) are
  fields of a record `ext` or answers of calls, universally quantified. No
  hypothesis about them is hidden: where, say, absence of hash collisions on
  the keys in use matters, the theorem says so.
* **Pure SDK functions** are ordinary Gallina functions.
* **HTTP endpoints** (`Http.v`) are programs of the same kind that call the
  services as subprograms; `HttpSystem.v` runs any number of HTTP requests over
  the same storage. `Refine.v`/`PfRef*.v` prove that every HTTP history is
  explained by a history of the services, which carries the theorems over.
* **The client and the resource server** (`Client.v`, `ResourceServer.v`) are
  state machines and programs over an arbitrary server.

## How properties are proved

1. *Program level.* A weakest-precondition calculus over `prog`, for all answers.
   Gives "if this request succeeds then it made these calls with these answers
   and the response is this".
2. *Storage level.* Invariants relating the log to the state of storage: what a
   read returns is what was last written under that key, not deleted and not
   expired.
3. *System level.* Each request's part of the log is an execution of its program;
   with 1 and 2 this gives the history properties.
4. *Pure functions.* Algebraic laws by induction.

False properties are kept in the list and get a theorem `…_refuted` with a
concrete execution as witness, together with the strongest variant that holds
(`…_partial`).

## Per property plan

| id | modelled by | method |
|----|-------------|--------|
| C01 | TokenSvc.client_credentials | program level |
| C02, C60 | TokenSvc, Storage, System | program + storage history: a get that succeeds after a delete needs a register in between |
| C03 | System | refuted by a two-request schedule; partial: holds if the get–delete windows do not overlap |
| C04, C05 | TokenSvc.authorization_code | program level |
| C06 | same | refuted by an execution with two clients sharing a redirect URI, and for all histories in which such a client looks the code up in time; partial: when no redirect URI is shared |
| C07, C28 | Storage | the cache is "last write per key, until its expiry" along every history |
| C08, C12, C14 | TokenSvc | program level |
| C09, C13, C16 | TokenSvc | refuted as stated; partial variants at program and history level |
| C10, C17, C24 | TokenSvc, Storage, System | invariant over the log |
| C11 | same | refuted (the code never compares the owner); partial: only the presented token is revoked |
| C15, C79 | DeviceSvc, Storage | refuted for the in-memory store (no status is ever set to pending, expiry is 0); partial: for a store that stamps sessions; proved by running every continuation of the request (`Ends.v`) against the invariant of the session |
| C18, C19 | all services | every way a request can end (`Ends.v`); C19 refuted for panicking paths, and the exact sets of panicking requests and of failures without a public error (`PfErr2.v`) |
| C20, C21 | System | invariant over the token store |
| C22 | System | refuted by concatenated keys; partial: for issuers that are not prefixes of each other |
| C23 | TokenStore | simulation between the pointer-level store and a map |
| C25, C26, C27, C29, C31 | AuthzSvc | program level, refuted parts by witness; C27 also refuted for all histories in which offline_access is listed twice |
| C30, C51 | Sdk generators | pure |
| C32–C34 | ClientAuth | program level with quantified JOSE functions |
| C35–C38 | DPoP, System | program level and log invariant; races refuted by witness |
| C39–C50, C52–C54, C59 | SDK files | pure functions, by induction |
| C55, C56 | Client, ResourceServer | state machine / program level |
| C57, C58, C61–C68 | Http, Client | handler programs; C57 over all HTTP histories |
| C69–C77 | HttpSystem, Refine | the service theorems through the refinement |
| C78 | TokenSvc, System | reasons of every token write |
| C80 | DPoP, Signer | the prover's token through the verifier, over histories |
| C81 | System, HttpSystem | a call bound for every service program (structural), then induction on the schedule |
| C82, C83, C84, C86, C87 | TokenSvc, AuthzSvc, Storage | every continuation of the request against what the invariants of the stores say it reads (`Ends.v`, `PfLive.v`, `PfLive2.v`) |
| C88 | TokenSvc | the calls of a successful introspection or revocation; for every call of `Revoke` on the store, the weakest-precondition invariant of the programs (`CallFacts.may_write`) |
| C89, C90 | DeviceSvc, Storage | the calls of the request, the provenance of the stored session (`PfDev.pending_origin`), and what the user-code index holds after the deletion; concurrent approvals refuted |
| C91 | Storage | invariant of both token indexes (`TokStore.tok_inv`) |
| C85 | DeviceSvc, Storage | partial: for a store that stamps sessions; the user-code slot keeps the pending session until the approval reads it |
| C92 | Randomness | small-step model of goroutines sharing the locked generator; invariant with the list of calls in order of their unlocks; refuted after a panic or a nested call |
| C93–C97 | Wire, Schemas | one generic codec over schemas taken from the Go text by tools/gen_schemas.py; readers shown to extend and retract, so that decoding composes; round trip and sizes by mutual induction on well-typed messages; totality by induction on the fuel, the fuel shown sufficient; nil oneof members, map order and map entry bounds refuted |
| C98 | ClientHttp, Client, HttpSystem, Refine | every continuation of the service request behind the HTTP request, with the clock and stores the refinement gives it (`PfWebLive*.v`); refuted for what the SDK makes of the answer, for the first second of a token and for DPoP-bound clients |
| C99–C100 | HttpSystem, Refine | the service-level theorems C82, C83 for the service request behind the HTTP request, with the stores and the clock the refinement gives it (`PfWebLive4.v`) |
| C101–C103 | HttpSystem, Refine | the service-level theorems C86, C87 for the service request behind the HTTP request, and the check of the DPoP proof (`PfWebLive5.v`, `PfWebLive6.v`) |
| C104 | HttpSystem, Refine | the service-level theorems C85 and C15 for the service requests behind the three HTTP requests, device codes apart over HTTP are apart at the services (`PfWebLive7.v`) |
| C105 | TokenSteps | an invariant relates the indexes and the shared objects, halfway through the methods, to the atomic store, and places a moment for each call; concrete schedules for the two failures (`PfSteps.v` to `PfSteps3.v`); for calls that do not overlap, the steps of each method are run against the pointer store of C23 (`PfSteps4.v`) |
| C106 | Attestation, ClientAuth, HttpSystem | what the two example programs make passes the checks of the server until it expires; the stages of a request (as for C98) do the rest; refuted for a server whose parser accepts only ES256 and ES384, by computing the answer without a single call (`PfAttest.v`) |
| C107 | Metadata | step by step, each request at one of four points and all sharing one string; invariant: the string and what is about to be assigned are towers of signatures; for a request without others in between a second invariant over its own points; refuted by schedules, for towers of any height by induction (`PfMetadata.v`) |
| C108 | Discovery, Client | creation of the client as a function of what the network would answer to each URL, with the routes of the server; by cases; refuted for metadata of another issuer and for null (`PfDiscovery.v`) |
| C109 | JsonReq | the 23 members as a table of names and kinds, writing and reading as protojson does, the claims as a list in any order; a lemma for each direction over the table, distinct names by computation (`PfJsonReq.v`) |
| C110 | — (HttpSystem) | composition of C101, C100, C70 and C72 on one history: the history is cut after the redemption, an authorization request stores one session, so the session that C70 finds is the one of C101; the token that introspection finds is the one created (`PfFlow.v`) |
| C111 | SignedDocs (with Signer, Claims, Jarm, JsonReq, DPoP, ClientAuth) | the JSON documents that the generators sign, as lists of members; each purpose has a shape (members that are there, members that are not), each reader needs members or a type that the other shapes lack (`PfPurpose.v`) |
| C112 | Formats (with Signer) | case analysis of the three serializers; the contract of the libraries (readers get back what was written, signatures verify, unprotected COSE headers are not covered) is a hypothesis; instantiated by concrete libraries in `MeetFormats.v` |
| C113 | Registry (heap of records, map of pointers) | induction over the history of registrations and writes by the holders of the records; loops over the map take an order as argument; the built-in clients instantiate it |
| C114 | HttpSystem | composition of C102, C103, C100, C70 and C72 along one history (`PfFlow2.v`); the code stands for the pushed request since normalisation is idempotent |
| C115 | UrlForm (net/url: QueryEscape, QueryUnescape, Values.Encode, ParseQuery; the Location header) | unescape after escape by induction on the bytes; the written pairs are a permutation of the form's; the answer of the endpoint from C66, the code from C101; a history with a redirect URI that has a query refutes that the query is kept |
| C116 | Headers (middleware as functions on handlers, the header as state of the response writer) | the adapted handlers run the programs of Http.v and differ in what they say of the result (a relation on programs); then by cases on where a response is written; a redemption and a failed login refute the rest |
| C117 | TokenGen (the token generators over Verifiable), the services and the HTTP server | a value has 88 or 89 bytes and starts with "sl", so an issuer followed by a value is read in one way; base62 of 16 bytes is injective; every program draws the identifier and the value of a token it stores after the token it stored before (`wp`), which gives different positions in any interleaving; discharges the hypothesis `no_reuse` of the other theorems; two histories with four and three stored tokens meet the hypotheses |
| C118 | Announced (the lists of the metadata document), Discovery, the HTTP server | inversion of the runs of each endpoint, lifted to histories: a fulfilled response shows which grant, method, algorithm and challenge the request used; the algorithm of a JWS is a parameter `alg` and the parser's list a hypothesis on it; announced values that never work are refuted for all requests and histories, values served but not announced by a history |
| C119 | TokenGen, the services and the HTTP server | inversion of a token response to the tokens stored by the same request; two stored tokens with one value are the same call, since their values were drawn at different positions from different UUIDs (C117); the history of C117 meets the hypotheses |
| C120 | Keys (settings, the key endpoint, how the SDK client reads it), Client, Signer, Jwk | the JSON of a key is read back as that key; the provider strips the secret before the handler sees it; a fetched set is never cached because it carries no expiry; what the signer makes verifies with the public part (the JOSE library as in C48); other key providers are refuted |
| C121 | Keys (server/profile), the services | C78 and C25 for clients whose registration is that of the profile, with exact names from names equal up to case; a concrete history for the refresh token that a web application cannot use |
| C03, C09, C11, C13, C16, C33, C37 (again) | the services and the storage (`PfAlways.v`) | the same claims refuted for all histories, not only by one schedule: every redemption that looks the code up in time, every refresh before a revocation, every revocation by whatever client, every requested scope, every poll, every use of an assertion before its expiry and every check that finds a proof new succeeds; by running every continuation of the request (`Ends.v`) against what storage must answer |

Every listed property is expressed in the model; none had to be left out.

## What is modelled

Files of `/repo` with the module that models them. Definitions carry line
numbers and their simplifications.

| code | module |
|------|--------|
| oidc/const.go, api/oidc/** (message types used by the services) | Types |
| sdk/types/string_array.go, compare.go | StringArray, Compare |
| server/services/token/*.go | TokenSvc |
| server/services/authorization/service.go | AuthzSvc |
| server/services/device/service.go | DeviceSvc |
| server/clientauthentication/*.go | ClientAuth |
| server/storage/inmemory/*.go | Storage (atomic calls), TokenStore (token.go at pointer level), TokenSteps (token.go in the steps goroutines interleave), Registry (client.go with its records in a heap) |
| sdk/dpop/*.go | DPoP, Signer |
| sdk/jwk/signature.go, sdk/token/jwt/*.go | Jwk, Signer |
| sdk/token/cwt/*.go, sdk/token/paseto/signer.go | Formats |
| sdk/token/{access_token,refresh_token,introspection,client_assertion}.go | Claims |
| sdk/token/verifiable/*.go | Base62, Verifiable, TokenGen |
| sdk/{pkce,generator,pairwise,rfcerrors}/*.go | Sdk |
| api/oidc/**/*_vtproto.pb.go | Wire (the functions), Schemas (generated: the fields of the 39 types) |
| sdk/randomness/*.go | Randomness (math/rand.Rand: an arbitrary state machine) |
| sdk/jarm/*.go | Jarm |
| sdk/jwsreq/*.go (with protojson for this message) | JsonReq; in Http any function from strings to requests |
| the claims structures of sdk/dpop/claims.go, sdk/jarm/decoder.go, sdk/token/*.go as JSON documents | SignedDocs: names and values of members, omitempty; of a confirmation the names of its members |
| examples/authorizationserver/** | Http, HttpSystem; Headers (order of the middleware, response headers) |
| client/http.go (key cache, assertion, client credentials, introspection) | Client, ClientHttp; UrlForm for the bytes of the form (what net/url does to queries and fragments) |
| examples/authorizationserver/handlers/metadata.go (in steps; its lists), main.go (routes), client/http.go: HTTP | Metadata, Discovery, Announced |
| examples/authorizationserver/settings.go, handlers/jwks.go; server/profile/*.go | Keys |
| examples/resourceserver/middleware.go | ResourceServer |
| examples/attestationserver/main.go, examples/attestationclient/main.go | Attestation |

## Not modelled

* TLS, HTTP parsing (except queries and forms, UrlForm), header
  canonicalisation, JSON and CBOR text: requests and documents are records and
  lists of members.
* The JOSE, COSE and PASETO libraries and cryptography: arbitrary functions,
  with their contract as a hypothesis where a property needs it (`jose_works`).
* HTML templates, logging, mocks, and generated code other than the
  vtproto codec (for which UTF-8 validity of strings plays no role).
* The Unicode folding table (an arbitrary function, with its laws as hypotheses).
* Concurrency below one storage call, except for TokenStore (the sharing of
  pointers) and TokenSteps, where each sync.Map operation and each field access
  is a step. Go's memory model itself: steps have one order for all goroutines.
* client/http.go beyond the functions in the table; the other example clients.

## Trusted base

* Coq 8.16.1's kernel (with `vm_compute` for concrete witnesses and examples).
* `Print Assumptions` follows every property theorem in `Props*.v`; each prints
  "Closed under the global context": no axiom, none of the standard library's
  either. The seven constants of `Coq.ssr.ssrunder` which the checker lists are
  parameters of a standard library module that is loaded together with other
  files; no theorem here depends on them.
* No plugin, functor, module type, `Variable` or `Hypothesis` outside a section,
  `Admitted` or open obligation. Section contexts are all discharged, so every
  hypothesis is visible in the statement.
* The reading of the Go code behind each definition, and the simplifications
  listed in its comment.

## Layout

* Model files: the table above. `Spec*.v`: the vocabulary of the statements.
  `Pf*.v` and the files marked "proofs only": proofs. `Demo*.v`, `Meet*.v`:
  concrete cases. `Props*.v` (generated by `tools/gen_props.py`): the theorems,
  each with `Print Assumptions` and an example that meets its hypotheses.
* `seeded/LOG.jsonl`: wrong programs tried and what noticed them.
