# Formal model of psion: design

Subject: `revensky/psion` at the pinned commit, sources in `/repo` (Python), read as text only.
Prover: Rocq/Coq 8.16.1, standard library only. All Coq files live in `rocq/theories`.

## Modelling approach

* **Data.** A Python `str` is a `list N` of code points, `bytes` a `list N` of values below 256.
  JSON-like Python values are the inductive `pyval` (None, bool, int, float lexeme, str, list, dict as an
  insertion-ordered association list).  Truthiness, `==`, `in`, `dict.get/update/pop` are modelled on it.
* **Exceptions** are values: `result A := Ok a | Err e`, with one constructor of `exn` per exception class that
  the code can raise, *including* builtins that escape (TypeError, KeyError, ValueError, binascii.Error, ...).
  `OutOfFuel` is a distinct value that theorems exclude.
* **Codecs** (UTF-8, base64 as implemented by CPython's `a2b_base64`, JSON scanner/printer, `parse_qsl`,
  `quote_plus`) are modelled concretely as computable functions.
* **Cryptography** is an oracle record (`crypto`): hash functions, HMAC, RSA/EC sign and verify, key checks of the
  `cryptography` package.  Correctness (`verify` accepts what `sign` made) appears only as an explicit theorem premise,
  never as an axiom.  No unforgeability is assumed: theorems state which oracle query must have answered "valid".
* **Time** is an explicit argument.  The naive `datetime.utcnow().timestamp()` is modelled with the local UTC offset.
* **OAuth** code is written as programs of a free monad `prog` over the effects of the `BaseAdapter` interface plus
  clock, `secret_token` and signing randomness (`Prog.v`).  `ptry` is the only control primitive (bind, `except` and
  `finally` derive from it).  `exec p tr x` says that `p`, whose calls were answered as recorded in the trace `tr`,
  ends with `x`: any answer and any exception at any call is possible, so per-request theorems hold for every
  application.  A concrete application is a handler (`run`), linked to `exec` by `run_exec`.
* **Histories** (`SpecHistory.v`) are lists of requests with their calls against one store.  A crash is a prefix of the
  calls of a request; concurrency is an interleaving of the calls of several requests (every `await` on the adapter is
  a point of interleaving, each call is atomic).  What the store must guarantee is `honours`, which the example
  adapter is proved to do.

## Files

| file | content |
|---|---|
| `Base.v` | strings, results, exceptions, `pyval`, dict operations |
| `Utf8.v`, `Base64.v`, `Json.v`, `Url.v` | codecs of the Python standard library used by psion |
| `Webtools.v` | `webtools.py` |
| `Crypto.v` | the oracle record `crypto`, curve parameters, key checks of `cryptography` 3.3.1, DER of ECDSA signatures |
| `RefCrypto.v` | a concrete `crypto` (SHA-2, HMAC, RSA) for the examples only |
| `Jwk.v` | `jose/jwk.py`, `jose/jwa/jwk.py` |
| `Jws.v` | `jose/jws.py`, `jose/jwa/jws.py` |
| `Jwt.v` | `jose/jwt.py`, `oidc/claims.py` |
| `JwsRef.v` | keys, tokens and witnesses for examples |
| `Prog.v` | the effects of `oauth2/adapter.py`, programs, traces |
| `Http.v` | `oauth2/models/http.py`, `oauth2/exceptions.py`, `oauth2/config.py`, responses |
| `OAuth.v` | `oauth2/authentication`, `oauth2/grants`, `oauth2/endpoints`, `oauth2/providers/base.py`, `oidc/flows` |
| `Example.v` | `example/adapter.py`, `example/models` as a store |
| `App.v` | `example/views`, `example/middlewares`, `example/forms`, the routes, `oauth2/providers/starlette.py`, as programs over the library and the tables |
| `ProgFacts.v`, `OAuthFacts.v`, `GrantFacts.v`, `EndpointFacts.v` | executions of programs, of client authentication, of grants and of endpoints |
| `RequestFacts.v`, `AuthzFacts.v`, `TokenFacts.v`, `ResponseFacts.v`, `IssueFacts.v`, `RaiseFacts.v`, `IdTokenFacts.v` | per-request properties |
| `HistoryFacts.v`, `ExampleFacts.v`, `StoreFacts.v` | histories, the example store |
| `OAuthRef.v`, `OAuthWit.v`, `OAuthEx.v`, `Race.v`, `HistoryWit.v` | concrete runs: examples and refutation witnesses |
| `CompleteFacts.v`, `FlowFacts.v`, `LineageFacts.v`, `FlowWit.v` | success of conforming requests, whole flows, origin of user tokens |
| `RfcFacts.v`, `RfcWit.v` | conformance to RFC 6749, 7636 and 9110 |
| `SpecHook.v`, `HookFacts.v`, `ExTokenFacts.v`, `HookWit.v` | which keys sign, exchanges with the hook, the example's tokens and claims |
| `SpecApp.v`, `AppFacts.v`, `AppWit.v` | the example application: sessions, login, logout |
| `SpecLife.v`, `LifeFacts.v`, `LifeWit.v`, `LifetimeFacts.v`, `LifetimeWit.v` | lifetimes of codes, tokens and sessions; error codes |
| `SpecLogin.v`, `LoginFacts.v`, `LoginWit.v` | the login form, visitors, the pages and methods of the example application |
| `SpecError.v`, `ErrorFacts.v`, `ErrorWit.v` | the checks of the endpoints in order, and the error that the first failing one gives |
| `SpecJoseErr.v`, `JoseErrFacts.v`, `ClaimFacts.v`, `TokenWriteFacts.v`, `TokenWriteWit.v` | the checks of `jws.py`, `jwt.py` and `oidc/claims.py` in order, when reading and when writing, and the exception that the first failing one gives |
| `SpecToken.v`, `TokenTextFacts.v` | the text of a signed token, RFC 7515 sections 3.1 and 7.1 (C146) |
| `JwkSign.v`, `SpecKeySign.v`, `KeySignFacts.v` | `JsonWebKey.sign` and `verify` called directly, with any hash argument and any further arguments (C147, C148); `alg_call`: the JWS algorithms call them so |
| `SpecIssued.v`, `IssuedFacts.v`, `IssuedWit.v` | accepted tokens were issued or are forgeries: `issued`, `forgery`, `exchanged_for` (C149-C151); no code of its own is modelled |
| `WebAny.v`, `SpecAny.v`, `AnyFacts.v` | the conversion helpers of `webtools.py` on every argument: bytes, None, bool, int, float (its text is an oracle), str, list, dict (C152-C155) |
| `SpecConsent.v`, `ConsentFacts.v`, `ConsentWit.v` | the authorization page with a session as the endpoint, sessions and wrong logins over histories (C156-C161); no new model |
| `JoseAny.v`, `JoseAnyFacts.v` | `deserialize`, `decode` and `serialize` for tokens and payloads of every type that `WebAny.v` knows (C162-C164) |
| `Change.v`, `SpecChange.v`, `ChangeFacts.v` | keys, headers, tokens and key sets changed after they were made: `key.data`, the header's dict, `token.claims`, the list of keys (C165-C168) |
| `SpecHide.v`, `HideFacts.v`, `HideWit.v` | the endpoints and the example application run with other secrets, attributes and passwords (C169, C170); no new model. Timing is not modelled: the `!=` of the code is not constant-time |
| `Page.v`, `SpecPage.v`, `PageFacts.v`, `PageWit.v` | `example/templates/*.j2` with the contexts of `example/views/auth.py` 27-77 and `connect.py` 27-40, the inputs of `example/forms/login.py` (C171-C173).  From outside the repository: Jinja2's escaping (`autoescape=True` as Starlette sets it) and WTForms' rendering of an input.  `SpecPage.v` reads the part of HTML that the pages use; browsers' handling of malformed HTML is not modelled |
| `SpecKeep.v`, `KeepFacts.v`, `KeepWit.v`, `SpecWho.v`, `WhoFacts.v`, `WhoWit.v`, `SpecSound.v`, `SoundFacts.v`, `SoundWit.v`, `SpecSize.v`, `SizeFacts.v`, `SizeWit.v`, `SpecAvail.v`, `AvailFacts.v`, `AvailWit.v`, `LastFacts.v`, `LastWit.v`, `LoginLastFacts.v`, `LoginLastWit.v`, `DanceFacts.v`, `DanceWit.v`, `HandFacts.v`, `HandWit.v`, `SpecOwner.v`, `OwnerFacts.v`, `OwnerWit.v` | nothing new: who changed the data base, that it stays consistent, how large it becomes, that a code stays until it is named and a refresh token until it is revoked, a login until the logout, that the whole flow completes among other requests, and which tokens answers hand out and for whom, over `App.v` (C174–C183) |
| `SpecUrl.v`, `UrlQuoteFacts.v`, `UrlWriteFacts.v` | how URLs and their parameters are written; the model's writers give exactly these texts |
| `SpecWrite.v`, `DecFacts.v`, `WriteFacts.v` | how values are written as JSON and as octets; the model's writer gives exactly these texts. The specifications of answers, redirects and tokens use this grammar and that of `SpecUrl.v` |
| `JwkFile.v` | `_parse_raw` and `JsonWebKey.parse` over a file system |
| `SpecJwkErr.v`, `JwkErrFacts.v`, `JwkWit.v` | which dicts are keys, the checks of `JsonWebKey` in order and the exception that the first failing one gives; raw keys and files |
| `JwkGen.v` | `JsonWebKey.generate` over its random sources |
| `SpecJwkGen.v`, `JwkGenFacts.v`, `JwkGenWit.v` | which key a call asks for; the checks in order |
| `SpecJwkParse.v`, `JwkParseFacts.v`, `JwkParseWit.v` | which key a text holds; the checks of `JsonWebKey.parse` in order |
| `SpecKeySet.v`, `KeySetFacts.v` | the same for key sets |
| `SpecPy.v`, `PyFacts.v` | which Python values count as false, which are equal, membership in a list: relations of their own, which the model's functions decide |
| `SpecReaders.v`, `ReaderFacts.v`, `ReadB64Facts.v`, `FormFacts.v`, `HeaderFacts.v`, `FormAllFacts.v`, `ReadJwsFacts.v`, `ReadOAuthFacts.v` | grammars of JSON, forms, word lists, Base64 and the Authorization header; the readers accept exactly these |
| `SpecPart.v`, `LogoutFacts.v`, `DescFacts.v`, `PartFacts.v` | what remains true of refuted properties (`PropsPart.v`) |
| `Ext.v` | the same endpoints and the authorization code grant with arbitrary grants, authentication methods and hooks of an application; `add_hook`, the loading of methods |
| `SpecExt.v`, `ExtFacts.v`, `ExtHookFacts.v`, `ExtSimFacts.v`, `ExtWit.v` | their executions; `OAuth.v` is an instance of `Ext.v` |
| `RepoTests.v` | the deterministic unit tests of the repository (`tests/jose`), computed in the model |
| `StdTests.v` | results of CPython 3.11's standard library on random inputs, compared with the models of its functions |
| `Spec*.v` | specifications independent of the model helpers |
| `*Facts.v` | proofs |
| `Props*.v` | the property theorems, each closed by `exact`, with `Print Assumptions` and an example |

## Properties

How each is proved.  "Refuted" means the property as stated is false of the code; then the theorem
`..._refuted` gives a concrete witness and `..._partial` the strongest true part.

| id | model / method |
|---|---|
| C01 | `Base64.v`: encoder and CPython decoder state machine; bit-level RFC 4648 spec; induction on 3-byte blocks |
| C02, C03 | binary integers to bytes, strong induction; C03 refuted at 0 |
| C04 | `Utf8.v`: encode/decode inverse; fallback alphabet |
| C05 | `Json.v`: printer and scanner; structural induction on values with fuel adequacy |
| C06 | list induction over operations |
| C07, C08 | `Url.v`: quote/unquote inverse, split on separators; C08 refuted for URLs with a query or fragment |
| C09 | random choices as a list of indices; injectivity by induction |
| C10-C12 | `str.split(None,1)`, lower-casing, base64, UTF-8, each against its grammar in `SpecReaders.v`; C11 refuted |
| C13 | per-character case analysis of `quote_plus` |
| C14 | hash as oracle with its digest length |
| C15-C22 | `Jwk.v`: record of key material from a dict; crypto checks as oracles; C15 as an equivalence with the RFC members; C18, C19 and C22 partly refuted |
| C23-C34, C39-C41 | `Jws.v`, `Jwt.v`: direct case analysis over `result`; C25, C28, C30, C32, C33, C41 refuted in part |
| C35-C38 | claim validation with explicit clock; C35 (falsy values), C37 (early break), C38 (time zone) refuted in part |
| C42-C51, C55-C63, C66-C71 | inversion of `exec`: which traces and results an endpoint can have; C43, C46, C47, C56, C59, C60, C62, C66, C68 refuted in part |
| C52, C54 | counting argument over histories: each token response needs a lookup, the contract a save without deletion since |
| C53 | refuted by a race computed with the example adapter; provenance and, under mutual exclusion, single use proved |
| C72-C75 | key import/export, error sets, generation; C72 (raw keys with zero octets), C73, C75 refuted |
| C76-C79 | conformance to RFC 7518 section 3 and error sets, refuted with witnesses under `ref` |
| C64 | operations of the example store |
| C80 | forward execution: under the premises every validation step continues, and the answer is the stated one |
| C81 | C80 twice, joined by the adapter contract on codes; the example adapter is proved to keep it |
| C82 | strong induction on the position in the interleaved log: a refresh leads to an earlier creation of the refresh token |
| C83 | run of the example store; refuted |
| C84 | congruence of programs with respect to executions, parameter by parameter |
| C85-C92 | refuted, partly for every request (C85, C87, C88, C90); forward execution for the rest |
| C93 | every header is a literal or a quoted Location (C13) |
| C94 | case analysis on key material and algorithm; the JSON of the header can be encoded as it has no lone surrogates |
| C95 | C80 continued through the hooks: the claims validate, the key signs (C94), the answer can be encoded |
| C96 | round trip of JWTs (C34) at every time of the hour; any other decoding of the same text gives the same claims |
| C97 | look-up in the assembled dictionary; the ID token by the round trip; refuted for created_at |
| C98 | histories of requests to pages are projected to histories of the library (C82); sessions by an invariant of the tables |
| C99 | invariants on the tables since the deletion |
| C100 | refuted by a run; invariant of the tables: without session and refresh token of the user only a stored code leads to a token |
| C101 | round trip of the query string through `urlencode`, `RedirectResponse` and `query_params` |
| C102 | refuted for every target; case analysis of the login without a query |
| C103 | refuted by a run, and for every HEAD request; the other pages by execution |
| C104 | refuted for every stored token and by a run with an expired one; that the token is stored by the steps of the store |
| C105 | invariant of the tables |
| C106 | two executions against two sets of tables |
| C143, C144 | along the execution: each own access of the views is a step of the tables |
| C107, C108 | refuted for every logout and every second login; the rest by execution and the steps of the tables |
| C109 | refuted by a run, and for every token that is not a stored refresh token; refresh tokens by an invariant of the store |
| C110, C111 | refuted by runs; the upper bound of a day by an invariant of the store |
| C112 | case analysis of all executions |
| C113 | refuted for every unknown grant type; the characters of all descriptions by a predicate closed under the constructions of the programs |
| C114 | induction on derivations of the grammar (completeness) and on the fuel of the scanner (soundness) |
| C115, C116 | induction on derivations of the grammar and on the text |
| C117 | invariant of the decoder: the pending bits and the number of padding characters |
| C118-C120, C127 | `Ext.v`: inversion of executions of the endpoints over arbitrary grants and methods, and forward execution |
| C121, C122 | induction on the list of hooks; the deletion in `finally` by cases on where the exchange ended |
| C123, C124 | the tables of hooks by class identity, induction on the list of grants; refuted by class hierarchies; C124 by induction on the classes |
| C125 | refuted for every run |
| C126 | simulation: executions of the program and its translation agree, construct by construct |
| C128 | `find` on an appended list; executions over an appended list of methods |
| C139 | induction on the text and on the list of parameters |
| C145 | induction on the value; decimal numerals are injective |
| C146 | the signing step inverted for each kind of key; `base64url_encode` and `json_dumps` replaced by their specifications (C01, C145) |
| C147, C148 | as C132, over the table in `SpecKeySign.v`; DER parsing is the inverse of DER writing |
| C149-C151 | reduction: C24 gives a valid signature over the text of the token; two tokens with the same text have the same header and payload, because the JSON text read is the one written; induction over the list of issued tokens. C150: the same for the ID tokens of a list of executions of the token endpoint, each one issued by C67's lemma; C151: C96 and the check of the options |
| C152-C155 | each table of `SpecAny.v` is total and single-valued along the cases of the argument; the codecs by C01, C02, C04, C114, C117; C154 and C155 refuted |
| C156-C161 | all refuted, each for every request or history: C156 from C80, C157 from C84, C158 by induction over `app_steps`, C159 with C98 and C143, C160 and C161 from C130 |
| C162-C164 | C162 and C163 by the type of the argument and the number of full stops in its text; C164 from C23 and C152 |
| C165-C168 | C165 by inverting the steps that use the key, along the cases of its material (the padding is that of the algorithm, whatever the members say); C166-C168 refuted, from C34, by execution for each algorithm name, and by induction over the list of keys |
| C169, C170 | relational proof: every run maps to a run with the other secrets that makes the same calls and has the same outcome, by recursion on the program; for C170 also every step of the data base, by induction over the history |
| C171-C173 | a document has one reading (inversion and induction), the reading of each template is composed of those of its pieces, constant pieces by a verified lexer; then C101 and C161 |
| C174, C175 | each access of the data base adds and removes only what it names; induction over the history finds the access, the traces of the views find the page and what it called before |
| C176 | keys by induction over the accesses; rows by the call that wrote them; for refresh tokens by strong induction over the length of the history, as one may come from another |
| C177 | counting against the pairs of C176; a login alone finds the session that it would repeat; refuted by n authorizations and by n overlapping logins, with the token as a variable in the computed prefix of the request |
| C178 | a code leaves the table by a deletion only, which is the last call of a token request naming it (C175), and keys are not repeated; the client and the user are found as by the saving request; then C95 |
| C179 | as C178, with the reasons of C174 for which a refresh token leaves the table; then the completeness of the refresh grant (C80); a trace without a look-up is excluded by taking it for one with a row that does not expire |
| C180 | a login that gives a cookie has read or written the session of the cookie (inversion); then as C178, with the reasons of C174 for which a session leaves its table; then the completeness of the authorization endpoint (C80) with the session, user and client that the data base must answer with |
| C181 | C180 for the code, then C178 for the token: the saved code lies in the stretch of the authorization, so the two splits of the log meet |
| C182 | the members of the answer are those of the dict that the grant made, which the hooks extend by `id_token` only (induction over the hooks); a JSON text has one reading; the other pages answer with pages, redirections, `null` or errors |
| C183 | as C182, keeping the calls that read the code or the refresh token and the user; in the log of the example a user is found only by their id, and a refresh token is created or found only for the id of its owner |
| C132, C133, C140, C141 | each line of the table in `SpecJoseErr.v` is shown equivalent to the step of the code it stands for, then composed along the sequence |
| C129–C131 | case analysis along the code; each check of the table is shown equivalent to what is computed (credentials, scopes, time read, PKCE) |
| C134 | refuted for every raw key with a zero octet, long ones, and names of files, by execution |
| C135, C136 | as C132, over the members of the dict, and over the list of keys |
| C137, C142 | as C135; the generated or read members reload (C16) |
| C138 | refuted by execution, for every key that is generated or read: the two parameters replace its type and its secret |
| C65 | `add_hook` as state transformer on the class-level hook table; refuted |

## Simplifications

* `request.data` values are `str` (as `models/http.py` builds them); `isinstance(x, str)` tests always succeed.
* `OAuth.v` has only the grants, authentication methods and hooks of the library; `Ext.v` has those of an application as
  arbitrary programs, which may make further calls (`XOther`), return any members and raise anything.  They do not change
  their arguments in place; a member of the wrong type is a TypeError where it is first used; a client that a method
  returns is an object (true in Python).
* The order in which a Python `set` is iterated is a function of the environment (`e_set_order`), of which theorems
  assume at most that it is a rearrangement (`order_ok`).
* A `client` is a record of what the mixin's methods return; `get_allowed_scopes` is a function, of which some theorems
  assume the documented contract (`restricts`).  A `user` has an id and attributes.
* Keys, key sets, headers and claims are values.  In Python `JsonWebKeySet` keeps the caller's list and every object can be
  changed afterwards (`key.data[...] = ...`, `keys.append(...)`), without being validated again; only `Change.v` is about
  that (not about values changed inside, such as a list among the claims, nor about the private attributes), the other
  theorems are about objects as they were made.  `JsonWebKeySet.load` is an instance method that does not use its instance.
* `JsonWebKey.sign` and `verify` take the data and the signature as bytes.
* `urllib.parse.urlsplit` is modelled with its bracket check on the network location, not its Unicode normalisation check.
* Example store: each adapter operation is atomic and either completes or raises and changes nothing; foreign keys,
  and maximal lengths appear only as such a failure; the clock is read once per operation.  Ids are compared as texts, as
  Tortoise does on SQLite; a `uuid` column of PostgreSQL also finds a client by another spelling of its id (upper case,
  without hyphens), which the theorems about the library cover (they hold for every `find_client`) and those about the
  example store do not.
* Example application: a request is what the views read of it.  The session cookie is authentic (Starlette signs it), the
  query string is parsed as `parse_qsl` does, the checks of the login form for the CSRF token and the syntax of the
  address are a bit of the request, the two deletions of the logout happen in order (each is atomic, both happen even
  if one fails), templates are rendered without failure.  In `Page.v` the CSRF token and
  the messages of the fields are any texts (`form_state`).

## Not modelled

Logging, documentation, type annotations, the static files of the example, Starlette, Tortoise, Jinja2 and WTForms
beyond what `App.v` and `Page.v` say of them, the internals of the `cryptography` package, ASN.1/PEM parsing, floats beyond their lexeme, `str()` of floats, lists and
dicts (a distinct error in the model), recursion
limits, memory exhaustion, and the limit of 4300 digits on conversions between `int` and `str`.

## Validation of the model

`RepoTests.v` and `StdTests.v` compute the model on inputs whose results are known: the assertions of the repository's
own tests, and what `base64`, `bytes.decode`, `json`, `urllib.parse`, `str.split`, `==`, `hashlib` and `hmac` returned on
random inputs, malformed ones included.  (The committed list is a sample; lists ten times as long were computed for
several seeds without a difference.)  Code of psion was not run.

## Trusted base

* The Coq kernel.  No theorem depends on an axiom: `Print Assumptions` beneath each one says "Closed under the global
  context".
* The faithfulness of the model to the cited lines, and of the modelled CPython 3.11 standard library functions.
* Oracles, which are parameters and never assumed to be anything unless a theorem has a premise about them: the record
  `crypto` (`Crypto.v`), and of `env` (`OAuth.v`) `e_hashlib`, `e_sha256`, `e_set_order`; the answers of the adapter,
  the clock, `secrets.choice`, the random sources of keys (`generator`, `JwkGen.v`) and the randomness of signatures; what `open(...).read()` does (`files`, `JwkFile.v`), of
  which theorems assume at most `linux` (`SpecJwkErr.v`): ValueError for a NUL, OSError for a component of more than
  255 bytes, no file with an empty name.
* `RefCrypto.v` is only used in examples and witnesses.
