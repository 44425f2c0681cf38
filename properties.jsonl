{"id": "C01", "title": "base64url round-trips every byte string", "statement": "base64url_decode(base64url_encode(b)) returns b, and base64url_encode(b) is exactly the RFC 4648 section 5 encoding of b without padding: 6-bit groups of the bit string of b, alphabet A-Z a-z 0-9 - _ only, no '='.", "quantifier": "every byte string of every length", "why_tests_cant": "the domain is infinite; padding arithmetic (len % 4) only goes wrong on particular lengths and bit patterns", "anchors": ["src/psion/webtools.py:base64url_decode", "src/psion/webtools.py:base64url_encode"]}
{"id": "C02", "title": "Integer codec round-trips every positive integer", "statement": "For every integer n >= 1, b64_to_int(int_to_b64(n)) returns n; int_to_b64(n) encodes the shortest big-endian byte string of n; negative integers are rejected with ValueError.", "quantifier": "every integer", "why_tests_cant": "unbounded integers (RSA moduli of any size)", "anchors": ["src/psion/webtools.py:int_to_b64", "src/psion/webtools.py:b64_to_int"]}
{"id": "C03", "title": "Integer codec accepts back everything it emits", "statement": "Whatever int_to_b64 returns without error, b64_to_int decodes back without error to the same integer.", "quantifier": "every integer accepted by int_to_b64, including 0", "why_tests_cant": "the failing input is a single boundary value in an infinite domain", "anchors": ["src/psion/webtools.py:int_to_b64", "src/psion/webtools.py:b64_to_int"]}
{"id": "C04", "title": "to_string is total on bytes and inverse to to_bytes", "statement": "to_string(to_bytes(s)) returns s for every str that can be UTF-8 encoded; to_string never raises on bytes: it returns the UTF-8 decoding when the bytes are valid UTF-8 and otherwise their base64url text; in particular a non-UTF-8 byte string never becomes a text containing a colon, a brace, a quote or whitespace.", "quantifier": "every str and every byte string", "why_tests_cant": "Unicode and invalid UTF-8 spaces are infinite", "anchors": ["src/psion/webtools.py:to_bytes", "src/psion/webtools.py:to_string"]}
{"id": "C05", "title": "JSON text round-trips every value", "statement": "json_loads(json_dumps(v)) returns v, with dict order preserved, for every nested combination of None, bool, int, str, list and str-keyed dict.", "quantifier": "every float-free JSON value of every depth and size", "why_tests_cant": "nesting depth, string escapes and integer sizes are unbounded", "anchors": ["src/psion/webtools.py:json_dumps", "src/psion/webtools.py:json_loads"]}
{"id": "C06", "title": "FullDict never holds None", "statement": "After constructing a FullDict from any dict and keyword arguments, and after any sequence of item assignments, no key maps to None and every non-None item supplied last is kept.", "quantifier": "every dict, every sequence of operations", "why_tests_cant": "the claim is about every history of mutations", "anchors": ["src/psion/webtools.py:FullDict"]}
{"id": "C07", "title": "Query strings round-trip", "statement": "Parsing (urldecode) the query produced for a dict of parameters with non-empty values (urlencode) returns the same dict in the same order, whatever characters the keys and values contain.", "quantifier": "every dict of non-empty Unicode strings", "why_tests_cant": "all characters must be escaped and unescaped correctly", "anchors": ["src/psion/webtools.py:urlencode", "src/psion/webtools.py:urldecode"]}
{"id": "C08", "title": "Redirect parameters are recoverable", "statement": "For a base URL and parameters, the URL built by urlencode starts with the base URL and a client parsing its query component recovers every parameter, and the base URL's own query parameters as well.", "quantifier": "every base URL and every parameter dict", "why_tests_cant": "failures depend on the shape of the registered URL, e.g. one that already has a query", "anchors": ["src/psion/webtools.py:urlencode", "src/psion/oauth2/grants/authorization_code.py:_create_authorization_response"]}
{"id": "C09", "title": "secret_token output shape and injectivity", "statement": "secret_token(n) for n >= 1 returns exactly n characters, all from A-Z a-z 0-9 - _, and distinct sequences of random choices give distinct tokens, so no entropy is lost and n choices give 64^n equally likely tokens.", "quantifier": "every size and every outcome of the random source", "why_tests_cant": "quantifies over all random outcomes", "anchors": ["src/psion/webtools.py:secret_token"]}
{"id": "C10", "title": "Basic credentials round-trip", "statement": "For every non-empty client id without a colon and every secret, get_basic_authorization on an Authorization header built as 'Basic ' + base64(id ':' secret), with any letter case of the scheme, returns exactly (id, secret); conversely whenever it returns a pair, the header carries base64 text of UTF-8 'id:secret' split at the first colon.", "quantifier": "every id, secret and header", "why_tests_cant": "infinite credential space, colons and Unicode", "anchors": ["src/psion/webtools.py:get_basic_authorization"]}
{"id": "C11", "title": "Credential extraction never raises", "statement": "get_basic_authorization and get_bearer_authorization return a value (possibly None) for every header dict and never raise.", "quantifier": "every Authorization header value", "why_tests_cant": "malformed headers form an unbounded space", "anchors": ["src/psion/webtools.py:get_basic_authorization", "src/psion/webtools.py:get_bearer_authorization"]}
{"id": "C12", "title": "Bearer tokens are extracted verbatim", "statement": "For every token that is non-empty and does not start with whitespace, get_bearer_authorization on 'Bearer ' + token in any scheme letter case returns exactly that token, and returns None for every other scheme.", "quantifier": "every token and scheme", "why_tests_cant": "infinite token space", "anchors": ["src/psion/webtools.py:get_bearer_authorization"]}
{"id": "C13", "title": "Redirect Location cannot carry header injection", "statement": "The Location header of every RedirectResponse contains only printable ASCII characters (0x21-0x7E), no CR, LF, space or control character, whatever URL was requested; URLs made only of RFC 3986 characters are passed through unchanged.", "quantifier": "every URL string", "why_tests_cant": "attacker-chosen characters", "anchors": ["src/psion/oauth2/models/http.py:RedirectResponse"]}
{"id": "C14", "title": "Half hash", "statement": "create_half_hash(token, alg) is the base64url encoding of the left half of the hash of the token, for every token and every supported algorithm name, and decodes to exactly half of the digest.", "quantifier": "every access token, hash function and algorithm", "why_tests_cant": "unbounded inputs", "anchors": ["src/psion/webtools.py:create_half_hash"]}
{"id": "C15", "title": "JWK constructor accepts only supported key types", "statement": "JsonWebKey(data) succeeds only if data is a non-empty dict whose kty is oct, RSA or EC, with the mandatory members of that type decodable, and an EC key's curve is P-256, P-384 or P-521; an unknown kty raises UnsupportedAlgorithm.", "quantifier": "every dict", "why_tests_cant": "infinite space of dicts", "anchors": ["src/psion/jose/jwk.py:JsonWebKey.__init__", "src/psion/jose/jwa/jwk.py:ECKey.__init__", "src/psion/jose/jwa/jwk.py:RSAKey.__init__", "src/psion/jose/jwa/jwk.py:OCTKey.__init__"]}
{"id": "C16", "title": "JWK private dump reloads to the same key", "statement": "For every key k with private or secret material, JsonWebKey(k.dump(public=False)) succeeds and has the same key material as k and the same other members (kid, use, alg, ...).", "quantifier": "every constructible key", "why_tests_cant": "infinite key space, leading zeros, re-encodings", "anchors": ["src/psion/jose/jwk.py:JsonWebKey.dump", "src/psion/jose/jwa/jwk.py:ECKey.dump", "src/psion/jose/jwa/jwk.py:RSAKey.dump", "src/psion/jose/jwa/jwk.py:OCTKey.dump"]}
{"id": "C17", "title": "Public dump does not depend on private material", "statement": "dump(public=True) of an RSA or EC key contains none of the private members d, p, q, dp, dq, qi, and is the same whatever the private values are.", "quantifier": "every RSA and EC key and every pair of private parts", "why_tests_cant": "non-interference quantifies over pairs of executions", "anchors": ["src/psion/jose/jwk.py:JsonWebKey.dump", "src/psion/jose/jwa/jwk.py:ECKey.dump", "src/psion/jose/jwa/jwk.py:RSAKey.dump"]}
{"id": "C18", "title": "Public dump never reveals secret material", "statement": "dump(public=True) reveals no secret for any key type, including symmetric keys and multi-prime RSA 'oth' members.", "quantifier": "every key", "why_tests_cant": "all keys and all members", "anchors": ["src/psion/jose/jwk.py:JsonWebKey.dump", "src/psion/jose/jwa/jwk.py:OCTKey.dump", "src/psion/jose/jwk.py:JsonWebKeySet.dump"]}
{"id": "C19", "title": "Symmetric export is the base64 of the secret", "statement": "export() of an oct key returns the Base64 encoding of the secret, so that parsing the export gives the same key back.", "quantifier": "every secret", "why_tests_cant": "the unit test only checks the return type", "anchors": ["src/psion/jose/jwa/jwk.py:OCTKey.export", "src/psion/jose/jwa/jwk.py:OCTKey.parse"]}
{"id": "C20", "title": "Key set ids are unique and lookup is exact", "statement": "JsonWebKeySet(keys) accepts exactly the non-empty lists in which every key has a kid and all kids differ; in an accepted set get_key(kid) returns the one key with that kid and None when there is none.", "quantifier": "every list of keys", "why_tests_cant": "lists of every length", "anchors": ["src/psion/jose/jwk.py:JsonWebKeySet"]}
{"id": "C21", "title": "Key set dump/load", "statement": "Loading a key set's private dump gives a key set with the same ids in the same order and the same key material; load rejects any dict whose keys are not exactly ['keys'].", "quantifier": "every key set", "why_tests_cant": "lists of every length", "anchors": ["src/psion/jose/jwk.py:JsonWebKeySet.load", "src/psion/jose/jwk.py:JsonWebKeySet.dump"]}
{"id": "C22", "title": "Asymmetric material is refused as a symmetric secret", "statement": "OCTKey.parse refuses any raw material containing a PEM or ssh-rsa marker (private key, public key, certificate), whatever surrounds it.", "quantifier": "every byte string and format", "why_tests_cant": "substring position is arbitrary", "anchors": ["src/psion/jose/jwa/jwk.py:OCTKey.parse"]}
{"id": "C23", "title": "JWS serialize/deserialize round-trip", "statement": "For every header, payload and key for which serialize succeeds, deserialize of the token with the verifying key, with or without pinning the algorithm, returns the same payload and the same header.", "quantifier": "every payload, header, key and algorithm", "why_tests_cant": "payload bytes and headers are unbounded", "anchors": ["src/psion/jose/jws.py:JsonWebSignature.serialize", "src/psion/jose/jws.py:JsonWebSignature.deserialize"]}
{"id": "C24", "title": "Signature soundness with a pinned algorithm", "statement": "If deserialize(token, key, algorithm) returns with validate on and a pinned algorithm other than none, then the third segment decodes to a signature that the key accepts, under exactly that algorithm, over the exact bytes of the first two segments joined by a dot, and the returned payload and header are the decodings of those segments.", "quantifier": "every byte string presented as a token", "why_tests_cant": "adversarial tokens", "anchors": ["src/psion/jose/jws.py:JsonWebSignature.deserialize", "src/psion/jose/jwa/jws.py:JWSAlgorithm"]}
{"id": "C25", "title": "No unsigned token is accepted", "statement": "With validate on, deserialize never returns a payload that was not signed with the key, whatever the token's header says, even when no algorithm is pinned.", "quantifier": "every token and key", "why_tests_cant": "adversarial headers (none attack)", "anchors": ["src/psion/jose/jwa/jws.py:none", "src/psion/jose/jws.py:JsonWebSignature.deserialize"]}
{"id": "C26", "title": "No algorithm confusion", "statement": "A token is verified with HMAC only under an oct key, with RSA only under an RSA key and with ECDSA only under an EC key of the matching curve: an asymmetric key's public material is never used as a MAC secret.", "quantifier": "every token, key and pinned algorithm", "why_tests_cant": "adversarial headers", "anchors": ["src/psion/jose/jwa/jws.py:JWSAlgorithm.validate_key", "src/psion/jose/jwa/jws.py:_EC.validate_key"]}
{"id": "C27", "title": "Key usage restrictions are enforced", "statement": "Signing or verifying succeeds only if the key's alg (when set) equals the header alg, the header's kid (when set) equals the key's kid, the key's use (when set) is sig and its key_ops (when set) contain only sign and verify.", "quantifier": "every key, header and operation", "why_tests_cant": "all combinations", "anchors": ["src/psion/jose/jws.py:_validate_key"]}
{"id": "C28", "title": "Key operations are enforced per operation", "statement": "A key restricted to key_ops ['verify'] cannot be used to sign and one restricted to ['sign'] cannot be used to verify.", "quantifier": "every key", "why_tests_cant": "all combinations", "anchors": ["src/psion/jose/jws.py:_validate_key"]}
{"id": "C29", "title": "JWS header validation", "statement": "JsonWebSignatureHeader(h) succeeds exactly when h is a non-empty dict with a registered alg, kid/typ/cty (when present) non-empty strings, and crit (when present) a non-empty list of non-empty strings each naming a member with a truthy value; the resulting header is h without its None members.", "quantifier": "every dict", "why_tests_cant": "infinite space of dicts", "anchors": ["src/psion/jose/jws.py:JsonWebSignatureHeader"]}
{"id": "C30", "title": "Critical extensions that are not understood are rejected", "statement": "A header whose crit lists an extension the library does not implement is rejected (RFC 7515 section 4.1.11).", "quantifier": "every header", "why_tests_cant": "infinite space of extension names", "anchors": ["src/psion/jose/jws.py:JsonWebSignatureHeader.validate_crit"]}
{"id": "C31", "title": "Tokens without exactly three segments are rejected", "statement": "deserialize raises InvalidJWSSerialization for every byte string that does not contain exactly two dots and gets past that check for every other.", "quantifier": "every byte string", "why_tests_cant": "infinite space", "anchors": ["src/psion/jose/jws.py:JsonWebSignature.deserialize"]}
{"id": "C32", "title": "Malformed tokens raise only library errors", "statement": "deserialize on any byte string either returns or raises a JoseError subclass as documented.", "quantifier": "every byte string and key", "why_tests_cant": "fuzz space is infinite", "anchors": ["src/psion/jose/jws.py:JsonWebSignature.deserialize", "src/psion/webtools.py:base64url_decode", "src/psion/webtools.py:json_loads"]}
{"id": "C33", "title": "A verified token is unique text", "statement": "For a signing input there is only one token text that verifies per signature value: two accepted tokens with the same header and payload segments and the same signature bytes are equal.", "quantifier": "every pair of tokens", "why_tests_cant": "quantifies over pairs of adversarial strings", "anchors": ["src/psion/jose/jwa/jws.py:_HMAC.verify", "src/psion/webtools.py:base64url_decode"]}
{"id": "C34", "title": "JWT encode/decode round-trip", "statement": "For every claims set accepted at issuance, decoding the encoded token with the verifying key (while the time claims still hold) returns the same claims and header.", "quantifier": "every claims set, header, key and pair of clock readings", "why_tests_cant": "unbounded claims", "anchors": ["src/psion/jose/jwt.py:JsonWebToken.encode", "src/psion/jose/jwt.py:JsonWebToken.decode"]}
{"id": "C35", "title": "Time claims are enforced", "statement": "A claims set is accepted only if exp, when present, is an integer strictly greater than the current time, and iat and nbf, when present, are integers not greater than the current time.", "quantifier": "every claims set and every clock reading", "why_tests_cant": "boundary instants and types", "anchors": ["src/psion/jose/jwt.py:JsonWebTokenClaims._validate_default_claims"]}
{"id": "C36", "title": "Registered claim types", "statement": "An accepted claims set has string iss, jti and sub when present and not null, and aud (when truthy) a string or a list of strings; any other type is rejected with InvalidJWTClaim.", "quantifier": "every claims set", "why_tests_cant": "infinite space", "anchors": ["src/psion/jose/jwt.py:JsonWebTokenClaims._validate_default_claims"]}
{"id": "C37", "title": "Every validation option is enforced", "statement": "When options are given, acceptance implies that every option is satisfied: essential claims are present, value options match and values options match one of the expected values.", "quantifier": "every claims set and every options dict in every order", "why_tests_cant": "the bug depends on the order and on list-valued claims", "anchors": ["src/psion/jose/jwt.py:JsonWebTokenClaims._validate_claims"]}
{"id": "C38", "title": "Time decisions do not depend on the time zone", "statement": "Acceptance of exp/iat/nbf depends only on the actual UTC time, not on the local time zone of the host.", "quantifier": "every time zone offset, instant and claims set", "why_tests_cant": "needs every zone and instant", "anchors": ["src/psion/jose/jwt.py:JsonWebTokenClaims._validate_default_claims", "src/psion/oidc/flows/authorization_code.py:_generate_id_token"]}
{"id": "C39", "title": "Only UTF-8 JSON objects become headers or claims", "statement": "deserialize/decode accept a token only if its header (and for JWT the payload) is valid UTF-8 text of a JSON object; the base64 fallback of to_string never turns other bytes into an accepted header or claims set.", "quantifier": "every byte string", "why_tests_cant": "adversarial bytes", "anchors": ["src/psion/webtools.py:json_loads", "src/psion/webtools.py:to_string", "src/psion/jose/jws.py:JsonWebSignature.deserialize", "src/psion/jose/jwt.py:JsonWebToken.decode"]}
{"id": "C40", "title": "decode without validation still checks default claims only", "statement": "decode(validate=False) performs no signature check and ignores options, but applies exactly the same header and default-claim validation; decode(validate=True) accepts a subset of what decode(validate=False) accepts with the same result.", "quantifier": "every token, key, options and clock", "why_tests_cant": "pairs of executions", "anchors": ["src/psion/jose/jwt.py:JsonWebToken.decode"]}
{"id": "C41", "title": "ID token auth_time and nonce are validated", "statement": "IDToken accepts a claims set only if auth_time, when present, is an integer, and the nonce equals the expected nonce when one is given in the options.", "quantifier": "every claims set and options", "why_tests_cant": "infinite space", "anchors": ["src/psion/oidc/claims.py:IDToken"]}
{"id": "C42", "title": "Client authentication is sound", "statement": "If authentication of a request returns a client, then either the request carried that client's secret by Basic header or by body and the client is registered for exactly that method, or the client has no secret, is registered with method none and was named in the body.", "quantifier": "every request, every client store, every adapter behaviour", "why_tests_cant": "adversarial requests", "anchors": ["src/psion/oauth2/authentication/client_authentication.py:ClientAuthentication.__call__", "src/psion/oauth2/authentication/methods/client_secret_basic.py", "src/psion/oauth2/authentication/methods/client_secret_post.py", "src/psion/oauth2/authentication/methods/none.py"]}
{"id": "C43", "title": "Only one authentication method per request", "statement": "If a request uses more than one client authentication method, authentication raises InvalidClient (as documented).", "quantifier": "every request", "why_tests_cant": "adversarial combinations", "anchors": ["src/psion/oauth2/authentication/client_authentication.py:ClientAuthentication"]}
{"id": "C44", "title": "Credentials are never taken from the URL", "statement": "Client authentication gives the same result for two requests that differ only in URL and query string.", "quantifier": "every pair of requests", "why_tests_cant": "pairs of executions", "anchors": ["src/psion/oauth2/authentication/methods/client_secret_post.py", "src/psion/oauth2/authentication/methods/none.py", "src/psion/oauth2/models/http.py:Request.form"]}
{"id": "C45", "title": "Authorization codes go only to the registered client", "statement": "The authorization endpoint stores and returns a code only when a user is present, the client exists, the requested redirect URI is one of its registered URIs, the response type is supported and registered for the client; the code is stored for that client and user and sent only to that redirect URI.", "quantifier": "every request and adapter behaviour", "why_tests_cant": "adversarial requests", "anchors": ["src/psion/oauth2/endpoints/authorization.py:AuthorizationEndpoint.__call__", "src/psion/oauth2/grants/authorization_code.py:AuthorizationCodeGrant.authorize"]}
{"id": "C46", "title": "No open redirect", "statement": "The authorization endpoint redirects the user agent only to the provider's error page or to a redirect URI registered for the requesting client.", "quantifier": "every request", "why_tests_cant": "adversarial redirect_uri", "anchors": ["src/psion/oauth2/endpoints/authorization.py:AuthorizationEndpoint.__call__"]}
{"id": "C47", "title": "state is returned to the client unchanged", "statement": "Every redirect to the client's redirect URI, success or error, carries the exact state parameter of the request when one was given and none otherwise.", "quantifier": "every request", "why_tests_cant": "arbitrary state strings and every error path", "anchors": ["src/psion/oauth2/endpoints/authorization.py:AuthorizationEndpoint.__call__", "src/psion/oauth2/grants/authorization_code.py:AuthorizationCodeGrant.authorize"]}
{"id": "C48", "title": "Granted scopes are supported and allowed", "statement": "Every scope stored with an authorization code was requested, is supported by the provider and is allowed for the client.", "quantifier": "every request, provider configuration and client", "why_tests_cant": "all scope sets", "anchors": ["src/psion/oauth2/grants/base.py:_validate_requested_scopes", "src/psion/oauth2/grants/authorization_code.py:authorize"]}
{"id": "C49", "title": "PKCE is always enforced", "statement": "Every stored code has a challenge of 43 to 128 characters and method plain or S256; a token is issued for a code only if the presented verifier transforms to the stored challenge under the stored method.", "quantifier": "every request, code and verifier", "why_tests_cant": "adversarial verifiers", "anchors": ["src/psion/oauth2/grants/authorization_code.py:_validate_authorization_request", "src/psion/oauth2/grants/authorization_code.py:_validate_authorization_code", "src/psion/oauth2/grants/authorization_code.py:S256_challenge"]}
{"id": "C50", "title": "Codes are bound to client, redirect URI and expiry", "statement": "The code grant issues a token only for a stored, unexpired code of the authenticated client with the same redirect URI, still registered; the token is for the code's user and exactly the code's scopes; a refresh token is issued only if the client may use that grant.", "quantifier": "every request, code and adapter behaviour", "why_tests_cant": "adversarial requests", "anchors": ["src/psion/oauth2/grants/authorization_code.py:AuthorizationCodeGrant.token", "src/psion/oauth2/grants/authorization_code.py:_validate_authorization_code"]}
{"id": "C51", "title": "A presented code is deleted on every exit path", "statement": "Whenever the code grant's token() runs on a request carrying a code, it requests deletion of that code exactly once and last, whether it succeeds, fails validation, or any adapter call raises or is cancelled.", "quantifier": "every request and every adapter behaviour including exceptions at every call", "why_tests_cant": "all exception points", "anchors": ["src/psion/oauth2/grants/authorization_code.py:AuthorizationCodeGrant.token"]}
{"id": "C52", "title": "Codes are single use in every sequential history", "statement": "In every sequence of completed requests against a store that honours the adapter contract, at most one token response is produced per authorization code, and each comes from an earlier authorization of that code with the same client, user, redirect URI, scopes and challenge.", "quantifier": "every history of requests of every length", "why_tests_cant": "unbounded histories", "anchors": ["src/psion/oauth2/grants/authorization_code.py:AuthorizationCodeGrant", "src/psion/oauth2/endpoints/token.py:TokenEndpoint", "src/psion/oauth2/endpoints/authorization.py:AuthorizationEndpoint"]}
{"id": "C53", "title": "Codes are single use under concurrency", "statement": "The same holds when requests interleave at await points.", "quantifier": "every schedule of any number of concurrent requests", "why_tests_cant": "all interleavings", "anchors": ["src/psion/oauth2/grants/authorization_code.py:AuthorizationCodeGrant.token"]}
{"id": "C54", "title": "Codes are single use across crashes", "statement": "The same holds when the process may stop between any two adapter calls and restart on the same store.", "quantifier": "every crash point", "why_tests_cant": "all crash points", "anchors": ["src/psion/oauth2/grants/authorization_code.py:AuthorizationCodeGrant.token"]}
{"id": "C55", "title": "Token responses are never cacheable", "statement": "Every response of the token endpoint, success or error, is JSON with status 200 or 400 and carries Cache-Control: no-store and Pragma: no-cache; status 200 bodies contain access_token and token_type Bearer and no null member; status 400 bodies contain an error code.", "quantifier": "every request and adapter behaviour", "why_tests_cant": "all paths", "anchors": ["src/psion/oauth2/endpoints/token.py:TokenEndpoint.__call__", "src/psion/oauth2/models/http.py:JSONResponse"]}
{"id": "C56", "title": "Endpoints never raise", "statement": "For every request the token and revocation endpoints return a response and never let an exception escape, as documented, when no adapter call raises.", "quantifier": "every request", "why_tests_cant": "malformed requests on every path", "anchors": ["src/psion/oauth2/endpoints/token.py:TokenEndpoint.__call__", "src/psion/oauth2/endpoints/revocation.py:RevocationEndpoint.__call__", "src/psion/oauth2/endpoints/base.py:BaseEndpoint.__call__", "src/psion/oauth2/grants/authorization_code.py:AuthorizationCodeGrant.token"]}
{"id": "C57", "title": "Clients use only their registered grants", "statement": "No token is created for a client by a grant that is not among its registered grant types or is not registered with the provider.", "quantifier": "every request", "why_tests_cant": "adversarial grant_type", "anchors": ["src/psion/oauth2/endpoints/token.py:TokenEndpoint"]}
{"id": "C58", "title": "Refresh never broadens", "statement": "The refresh grant issues tokens only for a stored unexpired refresh token of the authenticated client, for its user, and only with scopes among those of the refresh token.", "quantifier": "every request and adapter behaviour", "why_tests_cant": "adversarial scope requests", "anchors": ["src/psion/oauth2/grants/refresh_token.py:RefreshTokenGrant"]}
{"id": "C59", "title": "Tokens are issued only for existing users", "statement": "The code and refresh grants create tokens only for a user that the store still knows.", "quantifier": "every request and store", "why_tests_cant": "needs deleted-user histories", "anchors": ["src/psion/oauth2/grants/refresh_token.py:RefreshTokenGrant.token", "src/psion/oauth2/grants/authorization_code.py:AuthorizationCodeGrant.token"]}
{"id": "C60", "title": "Refresh tokens are rotated", "statement": "After a successful refresh the presented refresh token can no longer be used (OAuth 2.1 section 6.1).", "quantifier": "every history", "why_tests_cant": "histories", "anchors": ["src/psion/oauth2/grants/refresh_token.py:RefreshTokenGrant.token", "example/adapter.py:Adapter.create_refresh_token"]}
{"id": "C61", "title": "Client credentials grant", "statement": "The client credentials grant serves only clients authenticated with a secret, issues the access token to the client itself with scopes allowed for it, and never creates or returns a refresh token.", "quantifier": "every request", "why_tests_cant": "adversarial requests", "anchors": ["src/psion/oauth2/grants/client_credentials.py:ClientCredentialsGrant"]}
{"id": "C62", "title": "Issued scopes are always supported by the provider", "statement": "Every access token issued by any grant carries only scopes supported by the provider.", "quantifier": "every request and configuration", "why_tests_cant": "requests without scope", "anchors": ["src/psion/oauth2/grants/client_credentials.py:ClientCredentialsGrant.token", "src/psion/oauth2/grants/base.py:_validate_requested_scopes"]}
{"id": "C63", "title": "Revocation requires authentication", "statement": "The revocation endpoint asks the store to revoke only after successful client authentication, with that client and exactly the presented token; unsupported hints give 400 and revoke nothing; failed authentication gives 401 and revokes nothing.", "quantifier": "every request and adapter behaviour", "why_tests_cant": "adversarial requests", "anchors": ["src/psion/oauth2/endpoints/revocation.py:RevocationEndpoint"]}
{"id": "C64", "title": "Revocation affects only the caller's own token", "statement": "With the example adapter, revocation removes at most the refresh token presented, only if it belongs to the authenticated client, leaves every other record unchanged, and is idempotent.", "quantifier": "every store, request and history", "why_tests_cant": "all stores", "anchors": ["src/psion/oauth2/endpoints/revocation.py:RevocationEndpoint", "example/adapter.py:Adapter.revoke_token"]}
{"id": "C65", "title": "Hooks are local to the provider they are added to", "statement": "A hook added to one provider for one grant class runs only for that provider and grant.", "quantifier": "every set of providers and every order of add_hook calls", "why_tests_cant": "global state histories", "anchors": ["src/psion/oauth2/providers/base.py:BaseProvider.add_hook", "src/psion/oauth2/grants/base.py:BaseGrant.__hooks__"]}
{"id": "C66", "title": "ID token exactly when openid was granted", "statement": "With the OIDC hook, a successful code exchange returns an id_token if and only if the scope openid was granted.", "quantifier": "every scope set", "why_tests_cant": "substring effects", "anchors": ["src/psion/oidc/flows/authorization_code.py:AuthorizationCodeFlow.token_response"]}
{"id": "C67", "title": "ID token content", "statement": "A returned ID token verifies under the provider's key and carries the issuer, the client id as audience, exp = iat + lifespan, and the half hash of the returned access token, with userinfo claims taking precedence.", "quantifier": "every user, client, key and clock", "why_tests_cant": "unbounded inputs", "anchors": ["src/psion/oidc/flows/authorization_code.py:_generate_id_token"]}
{"id": "C68", "title": "ID token carries the nonce", "statement": "A nonce given in the authorization request appears in the ID token.", "quantifier": "every request", "why_tests_cant": "histories across two endpoints", "anchors": ["src/psion/oidc/flows/authorization_code.py:AuthorizationCodeFlow"]}
{"id": "C69", "title": "Request parsing", "statement": "request.data is the query parameters overridden by the body parameters; only GET and POST (any case) are accepted; parameters with blank values are dropped; other methods raise RuntimeError and unbalanced brackets in the URL raise ValueError.", "quantifier": "every request", "why_tests_cant": "infinite space", "anchors": ["src/psion/oauth2/models/http.py:Request"]}
{"id": "C70", "title": "No null members on the wire", "statement": "Token responses, error bodies and response headers never contain a null member.", "quantifier": "every response", "why_tests_cant": "all paths", "anchors": ["src/psion/oauth2/models/http.py:Response", "src/psion/webtools.py:FullDict", "src/psion/oauth2/grants/base.py:_create_token", "src/psion/oauth2/exceptions.py:OAuth2Error.dump"]}
{"id": "C71", "title": "Consent data shows only what the client may get", "statement": "get_consent_data returns the client and only scopes that were requested and that the client is allowed, and only for a registered redirect URI and response type.", "quantifier": "every request", "why_tests_cant": "adversarial requests", "anchors": ["src/psion/oauth2/endpoints/authorization.py:get_consent_data"]}
{"id": "C72", "title": "Parsing an exported key gives it back", "statement": "For every RSA or EC key, JsonWebKey.parse of its PEM export (private or public) is a key with the same (private or public) material, provided the back end's PEM loader inverts its PEM writer; the raw bytes of a symmetric key in der format come back.", "quantifier": "every key", "why_tests_cant": "unbounded keys", "anchors": ["src/psion/jose/jwk.py:JsonWebKey.parse", "src/psion/jose/jwa/jwk.py:RSAKey.parse", "src/psion/jose/jwa/jwk.py:ECKey.parse", "src/psion/jose/jwa/jwk.py:OCTKey.parse"]}
{"id": "C73", "title": "A malformed JWK raises only library errors", "statement": "JsonWebKey(data) either returns or raises a JoseError, whatever the data.", "quantifier": "every JSON value", "why_tests_cant": "unbounded inputs", "anchors": ["src/psion/jose/jwk.py:JsonWebKey.__init__", "src/psion/jose/jwa/jwk.py:RSAKey.__init__", "src/psion/jose/jwa/jwk.py:ECKey.__init__", "src/psion/jose/jwa/jwk.py:OCTKey.__init__"]}
{"id": "C74", "title": "Generated keys", "statement": "JsonWebKey.generate refuses symmetric keys under 32 bytes, RSA moduli under 512 bits and unknown curves; otherwise the key has exactly the generated material and the extra parameters as members.", "quantifier": "every size, random material and parameter dict", "why_tests_cant": "unbounded", "anchors": ["src/psion/jose/jwk.py:JsonWebKey.generate", "src/psion/jose/jwa/jwk.py:OCTKey.generate", "src/psion/jose/jwa/jwk.py:RSAKey.generate", "src/psion/jose/jwa/jwk.py:ECKey.generate"]}
{"id": "C75", "title": "EC coordinates have the full field width", "statement": "The dump of an EC key encodes x, y and d as octet strings of the full size of a coordinate of the curve (RFC 7518 sections 6.2.1.2-6.2.2.1).", "quantifier": "every EC key", "why_tests_cant": "one key in 256 is affected", "anchors": ["src/psion/jose/jwa/jwk.py:ECKey.dump", "src/psion/webtools.py:int_to_b64"]}
{"id": "C76", "title": "PS* signatures use the prescribed salt length", "statement": "PS256/384/512 sign and verify with a salt as long as the hash output (RFC 7518 section 3.5), so that conforming signatures are accepted.", "quantifier": "every RSA key and token", "why_tests_cant": "needs a second implementation", "anchors": ["src/psion/jose/jwa/jws.py:_RSA_PSS"]}
{"id": "C77", "title": "ES* signatures use the prescribed format", "statement": "ES256/384/512 signatures are the concatenation of R and S as fixed-size octet strings (RFC 7518 section 3.4).", "quantifier": "every EC key and token", "why_tests_cant": "needs a second implementation", "anchors": ["src/psion/jose/jwa/jws.py:_EC", "src/psion/jose/jwa/jwk.py:ECKey.sign"]}
{"id": "C78", "title": "Minimum key sizes", "statement": "HMAC keys shorter than the hash output and RSA keys under 2048 bits are refused for signing (RFC 7518 sections 3.2, 3.3).", "quantifier": "every key", "why_tests_cant": "every size", "anchors": ["src/psion/jose/jwa/jws.py:_HMAC", "src/psion/jose/jwa/jwk.py:OCTKey"]}
{"id": "C79", "title": "decode raises only library errors", "statement": "JsonWebToken.decode on any byte string either returns or raises a JoseError subclass.", "quantifier": "every byte string, key, options and clock", "why_tests_cant": "fuzz space is infinite", "anchors": ["src/psion/jose/jwt.py:JsonWebToken.decode"]}
{"id": "C80", "title": "Requests that follow the protocol succeed", "statement": "An authorization request, code exchange, refresh or client credentials request that follows RFC 6749/7636 and matches the application's records gets the success response of the RFC, with exactly the token, scopes and parameters that were created for it, when the application does not fail.", "quantifier": "every such request, provider, client and application behaviour", "why_tests_cant": "unbounded requests; liveness of every path", "anchors": ["src/psion/oauth2/grants/authorization_code.py:AuthorizationCodeGrant", "src/psion/oauth2/grants/refresh_token.py:RefreshTokenGrant.token", "src/psion/oauth2/grants/client_credentials.py:ClientCredentialsGrant.token", "src/psion/oauth2/endpoints/authorization.py:AuthorizationEndpoint.__call__", "src/psion/oauth2/endpoints/token.py:TokenEndpoint.__call__"]}
{"id": "C81", "title": "The code flow works end to end", "statement": "In every history of requests, some of which may crash, a code given for a conforming authorization request and not presented by any other request since is exchanged for tokens with the scopes of that authorization for the same user.", "quantifier": "every history of requests of every length with crashes", "why_tests_cant": "unbounded histories", "anchors": ["src/psion/oauth2/grants/authorization_code.py:AuthorizationCodeGrant", "example/adapter.py:Adapter.save_authorization_code"]}
{"id": "C82", "title": "User tokens go back to an authorization by that user", "statement": "Every access or refresh token created for a user, also through any number of refreshes, goes back to an authorization request made by that user for the same client that asked for at least these scopes.", "quantifier": "every set of interleaved requests, each stopped anywhere", "why_tests_cant": "unbounded interleaved histories", "anchors": ["src/psion/oauth2/grants/authorization_code.py:AuthorizationCodeGrant", "src/psion/oauth2/grants/refresh_token.py:RefreshTokenGrant", "example/adapter.py:Adapter"]}
{"id": "C83", "title": "The refresh token has the scopes of the response", "statement": "With the example adapter, the refresh token in a token response has exactly the scopes of the response.", "quantifier": "every history of the example application", "why_tests_cant": "needs two authorizations of the same client and user", "anchors": ["example/adapter.py:Adapter.create_refresh_token", "src/psion/oauth2/grants/authorization_code.py:AuthorizationCodeGrant.token"]}
{"id": "C84", "title": "Unrecognised parameters are ignored", "statement": "Two requests that agree on the parameters an endpoint recognises, on the credentials and on the user get the same treatment, whatever other parameters, order, headers, method and URL they have (RFC 6749 sections 3.1, 3.2).", "quantifier": "every pair of requests and every application behaviour", "why_tests_cant": "pairs of executions", "anchors": ["src/psion/oauth2/endpoints/token.py:TokenEndpoint.__call__", "src/psion/oauth2/endpoints/authorization.py:AuthorizationEndpoint.__call__", "src/psion/oauth2/endpoints/revocation.py:RevocationEndpoint.__call__"]}
{"id": "C85", "title": "Token requests must use POST", "statement": "The token endpoint refuses requests by other methods than POST (RFC 6749 section 3.2).", "quantifier": "every request", "why_tests_cant": "every method", "anchors": ["src/psion/oauth2/endpoints/token.py:TokenEndpoint.__call__", "src/psion/oauth2/models/http.py:Request"]}
{"id": "C86", "title": "Repeated parameters are refused", "statement": "A request in which a parameter occurs more than once is refused (RFC 6749 sections 3.1, 3.2).", "quantifier": "every request", "why_tests_cant": "all multisets of parameters", "anchors": ["src/psion/oauth2/models/http.py:Request", "src/psion/webtools.py:urldecode"]}
{"id": "C87", "title": "Bad codes and refresh tokens give invalid_grant", "statement": "An unknown, expired or mismatching authorization code or refresh token is answered with the error invalid_grant (RFC 6749 section 5.2).", "quantifier": "every token request and store", "why_tests_cant": "all failure paths", "anchors": ["src/psion/oauth2/grants/authorization_code.py:AuthorizationCodeGrant", "src/psion/oauth2/grants/refresh_token.py:RefreshTokenGrant"]}
{"id": "C88", "title": "Failed Basic authentication gives 401", "statement": "When the client tried to authenticate by the Authorization header and failed, the token endpoint answers with status 401 and a WWW-Authenticate header (RFC 6749 section 5.2).", "quantifier": "every such request", "why_tests_cant": "all failure paths", "anchors": ["src/psion/oauth2/endpoints/token.py:TokenEndpoint.__call__", "src/psion/oauth2/authentication/methods/client_secret_basic.py"]}
{"id": "C89", "title": "Code verifiers have the prescribed length", "statement": "A code is only exchanged for a verifier of 43 to 128 characters (RFC 7636 section 4.1).", "quantifier": "every exchange", "why_tests_cant": "every verifier", "anchors": ["src/psion/oauth2/grants/authorization_code.py:_validate_authorization_code"]}
{"id": "C90", "title": "The challenge method defaults to plain", "statement": "An authorization request with a code_challenge and no code_challenge_method is treated as one with the method plain (RFC 7636 section 4.3).", "quantifier": "every authorization request", "why_tests_cant": "every request", "anchors": ["src/psion/oauth2/grants/authorization_code.py:_validate_authorization_request"]}
{"id": "C91", "title": "Only its client can use up a code", "statement": "A request by another client than the one the code was issued to leaves the code usable.", "quantifier": "every request and store", "why_tests_cant": "adversarial requests", "anchors": ["src/psion/oauth2/grants/authorization_code.py:AuthorizationCodeGrant.token"]}
{"id": "C92", "title": "Authentication errors do not tell whether a client exists", "statement": "The response to wrong credentials is the same whether the client exists or not.", "quantifier": "every pair of stores and every request", "why_tests_cant": "pairs of executions", "anchors": ["src/psion/oauth2/authentication/methods/client_secret_basic.py"]}
{"id": "C93", "title": "Response headers are safe", "statement": "Every header name and value of every response is printable ASCII without CR and LF, whatever the request contains (RFC 9110 section 5.5).", "quantifier": "every request and application behaviour without OAuth2Errors of its own", "why_tests_cant": "header injection", "anchors": ["src/psion/oauth2/models/http.py:Response", "src/psion/oauth2/models/http.py:RedirectResponse"]}
{"id": "C94", "title": "A key signs exactly what suits it", "statement": "A token is made with a key exactly if the key's alg, kid, use and key_ops permit the header, and the algorithm is none or one of RFC 7518 section 3 for the key's type with the private part present (for ES the curve of the algorithm, for PS a modulus long enough).", "quantifier": "every key made by the library, header and payload", "why_tests_cant": "every combination of key members and algorithms", "anchors": ["src/psion/jose/jws.py:JsonWebSignature.serialize", "src/psion/jose/jwa/jws.py"]}
{"id": "C95", "title": "Conforming exchanges succeed with the OpenID Connect hook", "statement": "With the hook registered, every conforming exchange of a code is answered with status 200, the created access token and refresh token, and an ID token exactly if a granted scope contains openid, provided the application supplies a key suiting its algorithm and claims about the user only, and the request takes less time than the ID token lives.", "quantifier": "every request, store content, key, set of claims and time", "why_tests_cant": "the success of every such request", "anchors": ["src/psion/oidc/flows/authorization_code.py", "src/psion/oauth2/grants/authorization_code.py:AuthorizationCodeGrant.token"]}
{"id": "C96", "title": "Access tokens of the example application", "statement": "Every access token that the example application issues is a signed JWT with iss, sub, client_id, scope, iat, exp and jti (RFC 9068) naming the owner, client and scopes; its key accepts it during the hour after issue and never later, however it is decoded; the token endpoint sends it for the user of the code.", "quantifier": "every store, request, owner, client, scopes and time", "why_tests_cant": "all times and inputs", "anchors": ["example/adapter.py:Adapter.create_access_token", "src/psion/oauth2/endpoints/token.py"]}
{"id": "C97", "title": "The example discloses only the claims that the scopes ask for", "statement": "The claims about the user in the ID token and get_userinfo of the example application are sub and the standard claims of the granted scopes (OpenID Connect Core section 5.4), and all of those that the user has.", "quantifier": "every user, scopes and way of decoding the ID token", "why_tests_cant": "every combination of scopes and attributes", "anchors": ["example/adapter.py:Adapter.get_userinfo", "src/psion/oidc/flows/authorization_code.py"]}
{"id": "C98", "title": "Tokens need a login with the password", "statement": "In the example application, every access or refresh token created for a user, also through any number of refreshes, goes back to an authorization request made with a session of that user which was started by a request with the user's address and password and not ended in between; a session cookie is only given to a request with the password.", "quantifier": "every set of interleaved requests to the pages, each stopping anywhere, and every data base without sessions, codes and tokens", "why_tests_cant": "all interleavings and crashes", "anchors": ["example/views/auth.py:LoginView.post", "example/views/connect.py:AuthorizationEndpoint.get", "example/middlewares/authentication.py:SessionAuthBackend.authenticate", "src/psion/oauth2/providers/starlette.py"]}
{"id": "C99", "title": "Logout ends sessions and refresh tokens", "statement": "A completed logout deletes all sessions and refresh tokens of the user: a session found afterwards was started since, by a request with the password, and a refresh token found afterwards was created since.", "quantifier": "every set of interleaved requests and every data base", "why_tests_cant": "all interleavings", "anchors": ["example/views/auth.py:LogoutView.get"]}
{"id": "C100", "title": "After a logout no token is issued without another login", "statement": "After a completed logout no token is created for the user until the user logs in again.", "quantifier": "every history", "why_tests_cant": "needs a code issued before the logout", "anchors": ["example/views/auth.py:LogoutView.get", "example/adapter.py:Adapter.get_authorization_code"]}
{"id": "C101", "title": "The login leads back to the authorization request", "statement": "An authorization request without a session is redirected to the login, and a successful login at that address redirects to exactly the URL of the authorization request.", "quantifier": "every authorization URL and every login", "why_tests_cant": "all URLs and characters", "anchors": ["example/views/connect.py:AuthorizationEndpoint.get", "example/views/auth.py:LoginView.post", "src/psion/webtools.py:urlencode"]}
{"id": "C102", "title": "The login redirects only to the application", "statement": "After a login the user is redirected to a page of the application.", "quantifier": "every login request", "why_tests_cant": "adversarial links", "anchors": ["example/views/auth.py:LoginView.post"]}
{"id": "C103", "title": "The application answers every request", "statement": "No request to a page ends in an exception when the data base does not fail.", "quantifier": "every request to every page", "why_tests_cant": "adversarial requests", "anchors": ["example/views/connect.py", "src/psion/oauth2/providers/starlette.py", "src/psion/oauth2/endpoints/revocation.py"]}
{"id": "C104", "title": "A refresh token that is handed out can be used", "statement": "The refresh token in a successful token response is stored for the client and the user and has not expired.", "quantifier": "every history of the example application", "why_tests_cant": "needs a clock two weeks later", "anchors": ["example/adapter.py:Adapter.create_refresh_token", "src/psion/oauth2/grants/refresh_token.py:RefreshTokenGrant"]}
{"id": "C105", "title": "One refresh token per client and user", "statement": "The example application never stores two refresh tokens for the same client and user.", "quantifier": "every sequence of calls from every data base in which it holds", "why_tests_cant": "unbounded histories", "anchors": ["example/adapter.py:Adapter.create_refresh_token", "example/models/tokens.py:RefreshToken"]}
{"id": "C106", "title": "The login does not tell whether an account exists", "statement": "The reply to a login attempt with a wrong password is the same as the reply when there is no such account.", "quantifier": "every login attempt and pair of data bases", "why_tests_cant": "pairs of executions", "anchors": ["example/views/auth.py:LoginView.post"]}
{"id": "C107", "title": "Safe methods change nothing", "statement": "A GET or HEAD request to the example application leaves its data unchanged (RFC 7231 section 4.2.1).", "quantifier": "every request and data base", "why_tests_cant": "all pages and states", "anchors": ["example/views/auth.py:LogoutView.get", "example/views/connect.py:AuthorizationEndpoint.get"]}
{"id": "C108", "title": "Each login starts a session of its own", "statement": "A successful login sets the cookie of a session that did not exist before.", "quantifier": "every login and data base", "why_tests_cant": "depends on the sessions of the user", "anchors": ["example/views/auth.py:LoginView.post"]}
{"id": "C109", "title": "A revoked token is invalid", "statement": "After a revocation request that is answered with 200 the token is no longer accepted (RFC 7009 section 2).", "quantifier": "every history after the revocation", "why_tests_cant": "unbounded histories", "anchors": ["src/psion/oauth2/endpoints/revocation.py:RevocationEndpoint.__call__", "example/adapter.py:Adapter.revoke_token"]}
{"id": "C110", "title": "Using a code again revokes its tokens", "statement": "When a code is presented a second time the tokens issued for it are revoked (RFC 6749 section 4.1.2, SHOULD).", "quantifier": "every history", "why_tests_cant": "histories of three requests", "anchors": ["src/psion/oauth2/grants/authorization_code.py:AuthorizationCodeGrant.token"]}
{"id": "C111", "title": "Codes live for ten minutes at most", "statement": "A code is not accepted more than ten minutes after it was issued (RFC 6749 section 4.1.2, RECOMMENDED).", "quantifier": "every history and clock", "why_tests_cant": "all clock readings", "anchors": ["example/adapter.py:Adapter.save_authorization_code", "src/psion/oauth2/grants/authorization_code.py:_validate_authorization_code"]}
{"id": "C112", "title": "Error codes are those of the RFCs", "statement": "Every redirect of the authorization endpoint carries either a code or exactly one error of RFC 6749 section 4.1.2.1; so do the redirects of the consent data; every error response of the revocation endpoint carries an error of RFC 7009 section 2.2.1, with status 401 just for invalid_client.", "quantifier": "every request, provider and application behaviour without OAuth2Errors of its own", "why_tests_cant": "all failure paths", "anchors": ["src/psion/oauth2/endpoints/authorization.py:AuthorizationEndpoint", "src/psion/oauth2/endpoints/revocation.py:RevocationEndpoint.__call__", "src/psion/oauth2/exceptions.py"]}
{"id": "C113", "title": "Error descriptions have the permitted characters", "statement": "Every error_description consists of the characters %x20-21, %x23-5B and %x5D-7E (RFC 6749 section 5.2).", "quantifier": "every request", "why_tests_cant": "adversarial text", "anchors": ["src/psion/oauth2/endpoints/token.py:_validate_grant_type", "src/psion/oauth2/exceptions.py"]}
{"id": "C114", "title": "JSON is read and written as RFC 8259 says", "statement": "json_loads returns a value exactly if the octets are the UTF-8 of a text of the grammar of RFC 8259 (extended by NaN, the infinities and unpaired surrogates), namely the value that the grammar gives (a repeated name keeps its last value), or if they are not UTF-8 and their Base64 text is such a text; otherwise it raises JSONDecodeError. json_dumps writes RFC 8259 text of its value.", "quantifier": "every octet string and every value without floats", "why_tests_cant": "infinite text space", "anchors": ["src/psion/webtools.py:json_loads", "src/psion/webtools.py:json_dumps"]}
{"id": "C115", "title": "Forms are read and written as application/x-www-form-urlencoded", "statement": "urldecode of every text, well formed or not, gives the pairs it stands for, without those that have no value and with the last value of a repeated name (stray percent signs stand for themselves, octets that are not UTF-8 become U+FFFD); the encoder writes such a text for its pairs.", "quantifier": "every form text and dict of strings", "why_tests_cant": "infinite text space", "anchors": ["src/psion/webtools.py:urldecode", "src/psion/webtools.py:urlencode"]}
{"id": "C116", "title": "Scopes are the words of the text", "statement": "The scopes read from a request are exactly the words between white space, in order.", "quantifier": "every text", "why_tests_cant": "infinite text space", "anchors": ["src/psion/oauth2/endpoints/authorization.py", "src/psion/oauth2/grants/refresh_token.py:RefreshTokenGrant"]}
{"id": "C117", "title": "Base64 decoding is characterised exactly", "statement": "base64url_decode returns octets exactly if the padded text is, read without characters outside the two alphabets of RFC 4648, Base64 of these octets up to the first complete padding, and raises binascii.Error otherwise; on texts of the URL-safe alphabet it reads the whole octets of the bits of every text whose length is not 1 modulo 4. The decoder and encoder of the Basic credentials are those of section 4.", "quantifier": "every text", "why_tests_cant": "infinite text space", "anchors": ["src/psion/webtools.py:base64url_decode", "src/psion/webtools.py:get_basic_authorization"]}
{"id": "C118", "title": "Application grants run only for the right client", "statement": "Whatever grants and client authentication methods an application adds, the token endpoint runs the first grant with the grant type of the request, only for a client that one of the methods the grant accepts authenticated and that may use the grant type, with the other members of the request; its answer, and nothing else, is sent as JSON not to be cached; and whenever these conditions hold it does run.", "quantifier": "every list of grants and methods, request and application behaviour", "why_tests_cant": "all application code", "anchors": ["src/psion/oauth2/endpoints/token.py:TokenEndpoint.__call__", "src/psion/oauth2/providers/base.py:BaseProvider"]}
{"id": "C119", "title": "Method selection", "statement": "The client is the one returned by the first of the accepted methods, in their order, that does not decline; a refusal, also an exception of Python, is final; when all decline the answer is invalid_client.", "quantifier": "every list of methods, request and application behaviour", "why_tests_cant": "all application code", "anchors": ["src/psion/oauth2/authentication/client_authentication.py", "src/psion/oauth2/providers/base.py:BaseProvider"]}
{"id": "C120", "title": "Application grants at the authorization endpoint", "statement": "Whatever grants an application adds, the authorization endpoint runs the first grant with the response type of the request, only for a user who is logged in and a client that has registered the redirect URI and the response type; where the grant redirects to is followed, its errors go to that redirect URI or the error page; and whenever these conditions hold it does run.", "quantifier": "every list of grants, request and application behaviour", "why_tests_cant": "all application code", "anchors": ["src/psion/oauth2/endpoints/authorization.py:AuthorizationEndpoint.__call__"]}
{"id": "C121", "title": "Hooks of the authorization request", "statement": "Whatever hooks are registered, a successful authorization saves one code, with the members of the request as the hooks changed them in turn (the last one counting); the scopes left by the hooks are supported and allowed for the client; and the response has the code and state as the response hooks changed them.", "quantifier": "every list of hooks and every run", "why_tests_cant": "all application code", "anchors": ["src/psion/oauth2/grants/authorization_code.py:AuthorizationCodeGrant.authorize"]}
{"id": "C122", "title": "Hooks of the exchange", "statement": "Whatever hooks are registered, the tokens of an exchange are for the user and the scopes of an unexpired code bound to the client, to the redirect URI and to the verifier that the hooks left; the last call deletes the code looked up or the one of the request, that of the request whenever no hook replaces it.", "quantifier": "every list of hooks and every run, failing ones too", "why_tests_cant": "all application code", "anchors": ["src/psion/oauth2/grants/authorization_code.py:AuthorizationCodeGrant.token"]}
{"id": "C123", "title": "A hook runs only in the grants it was registered for", "statement": "add_hook(grant_class, hook) makes the hook run in the grants of that class and in no other.", "quantifier": "every provider and list of grant classes", "why_tests_cant": "all class hierarchies", "anchors": ["src/psion/oauth2/providers/base.py:BaseProvider.add_hook", "src/psion/oauth2/grants/base.py"]}
{"id": "C124", "title": "Every concrete authentication class is used", "statement": "A provider knows a method for every concrete class derived from BaseAuthentication.", "quantifier": "every class hierarchy", "why_tests_cant": "all class hierarchies", "anchors": ["src/psion/oauth2/providers/base.py:BaseProvider"]}
{"id": "C125", "title": "Hooks run in every grant", "statement": "The hooks registered for a grant run when the grant issues tokens.", "quantifier": "every grant, list of hooks and run", "why_tests_cant": "all application code", "anchors": ["src/psion/oauth2/grants/refresh_token.py:RefreshTokenGrant.token", "src/psion/oauth2/grants/client_credentials.py:ClientCredentialsGrant.token", "src/psion/oauth2/providers/base.py:BaseProvider.add_hook"]}
{"id": "C126", "title": "The extensible endpoints refine the library's", "statement": "With just the grants, methods and hooks of the library the extensible model of the three endpoints has the same executions as the model of the other properties.", "quantifier": "every provider, request and application behaviour", "why_tests_cant": "two models", "anchors": ["src/psion/oauth2/endpoints/token.py:TokenEndpoint.__call__", "src/psion/oauth2/endpoints/authorization.py:AuthorizationEndpoint.__call__", "src/psion/oauth2/endpoints/revocation.py:RevocationEndpoint.__call__"]}
{"id": "C127", "title": "Revocation with application methods", "statement": "Whatever methods an application adds that do not revoke tokens themselves, a token is revoked only for the client that one of them authenticated, as the last call, and it is the token of the form.", "quantifier": "every list of methods, request and application behaviour", "why_tests_cant": "all application code", "anchors": ["src/psion/oauth2/endpoints/revocation.py:RevocationEndpoint.__call__"]}
{"id": "C128", "title": "Extensions are conservative", "statement": "Adding grants changes nothing for requests with a type that the provider knows already, and adding methods nothing for the requests that its own methods authenticate.", "quantifier": "every provider, extension and request", "why_tests_cant": "all application code", "anchors": ["src/psion/oauth2/providers/base.py:BaseProvider"]}
{"id": "C129", "title": "The first failing check decides the error of a token response", "statement": "The token endpoint answers with the error of the first check that fails, in a fixed order of checks for each grant type, and with a success if all hold; the description names the check, and the scope, grant type or method where it has one: which error (invalid_request, invalid_client, invalid_grant, unauthorized_client, unsupported_grant_type, invalid_scope) is sent is a function of which conditions the request and the stored data meet.", "quantifier": "every request, provider and application behaviour that gets an answer", "why_tests_cant": "all combinations of failures", "anchors": ["src/psion/oauth2/endpoints/token.py:TokenEndpoint.__call__", "src/psion/oauth2/grants/authorization_code.py:AuthorizationCodeGrant.token", "src/psion/oauth2/grants/refresh_token.py:RefreshTokenGrant.token", "src/psion/oauth2/grants/client_credentials.py:ClientCredentialsGrant.token", "src/psion/oauth2/authentication/client_authentication.py"]}
{"id": "C130", "title": "The first failing check decides the redirection", "statement": "The authorization endpoint and the consent data answer with the error of the first check that fails, on the error page of the provider for the failures of the redirect URI and the client and at the redirect URI for the others, with the description of this check, and with a code (the consent data) if all hold.", "quantifier": "every request, provider and application behaviour that gets an answer", "why_tests_cant": "all combinations of failures", "anchors": ["src/psion/oauth2/endpoints/authorization.py:AuthorizationEndpoint.__call__", "src/psion/oauth2/endpoints/authorization.py:AuthorizationEndpoint.get_consent_data", "src/psion/oauth2/grants/authorization_code.py:AuthorizationCodeGrant.authorize"]}
{"id": "C131", "title": "The first failing check decides the error of a revocation", "statement": "The revocation endpoint answers 401 invalid_client if no client is proved, nothing if there is no token, 400 unsupported_token_type for an unknown hint, and 200 otherwise; the description names the check of the credentials that failed.", "quantifier": "every request and application behaviour that gets an answer", "why_tests_cant": "all combinations of failures", "anchors": ["src/psion/oauth2/endpoints/revocation.py:RevocationEndpoint.__call__"]}
{"id": "C132", "title": "The first failing check decides the error of a JWS", "statement": "deserialize raises the exception of the first check that fails, in a fixed order (segments, encoding and JSON of the header, alg, the other header parameters, the pinned algorithm, the key's alg, kid, use and operations, its kind, the encoding and validity of the signature, the encoding of the payload), and returns a JWS if all hold.", "quantifier": "every byte string, constructible key, pinned algorithm and validate flag", "why_tests_cant": "all combinations of failures", "anchors": ["src/psion/jose/jws.py:JsonWebSignature.deserialize", "src/psion/jose/jws.py:JsonWebSignatureHeader"]}
{"id": "C133", "title": "The first failing check decides the error of a JWT", "statement": "decode raises the exception of the first check that fails, in a fixed order (those of C132, the JSON of the payload, the registered claims at the time of reading, the options of the caller, the claims again, their encoding), and returns a JWT if all hold.", "quantifier": "every byte string, constructible key, options and two readings of the clock", "why_tests_cant": "all combinations of failures", "anchors": ["src/psion/jose/jwt.py:JsonWebToken.decode", "src/psion/jose/jwt.py:JsonWebTokenClaims"]}
{"id": "C134", "title": "Bytes given as a raw key are the key", "statement": "JsonWebKey.parse, given the bytes of a key rather than a path, takes these bytes as the key, whatever they are and whatever files there are.", "quantifier": "every byte string and file system", "why_tests_cant": "a random secret rarely has the form that open() refuses or accepts", "anchors": ["src/psion/jose/jwa/jwk.py:_parse_raw", "src/psion/jose/jwk.py:JsonWebKey.parse", "src/psion/jose/jwa/jwk.py:OCTKey.parse"]}
{"id": "C135", "title": "The first failing check decides the error of a JWK", "statement": "JsonWebKey raises the exception of the first check that fails, in a fixed order per key type (kty, its support, required members, unexpected argument names, type, encoding and value of each member, the private members together, the checks of the back end), and returns a key if all hold.", "quantifier": "every value", "why_tests_cant": "all combinations of failures", "anchors": ["src/psion/jose/jwk.py:JsonWebKey.__init__", "src/psion/jose/jwa/jwk.py:OCTKey", "src/psion/jose/jwa/jwk.py:RSAKey", "src/psion/jose/jwa/jwk.py:ECKey"]}
{"id": "C136", "title": "The first failing check decides the error of a key set", "statement": "JsonWebKeySet.load raises InvalidKeySet for a value that is no dict with the one name keys, TypeError if its value cannot be looped over, else the error of the first key that cannot be made, else InvalidKeySet for an empty set, a key without id or two equal ids, and TypeError for an id that is a list or dict, in this order; dump fails only for private dumps of sets with a public key.", "quantifier": "every value", "why_tests_cant": "all combinations of failures", "anchors": ["src/psion/jose/jwk.py:JsonWebKeySet.load", "src/psion/jose/jwk.py:JsonWebKeySet.__init__", "src/psion/jose/jwk.py:JsonWebKeySet.dump"]}
{"id": "C137", "title": "What JsonWebKey.generate makes", "statement": "JsonWebKey.generate makes exactly the keys it is asked for: a symmetric key of the given number of octets (at least 32; 32 if none is given), an RSA key of the given number of bits (at least 512; 2048 if none is given) with exponent 65537, an EC key of one of the three curves, each as the random source returned it and with the parameters as other members; otherwise it raises the exception of the first of its checks that fails.", "quantifier": "every algorithm name, every option, every answer of the random sources, all parameters not named like a member of a key", "why_tests_cant": "the options are of any type and the sources are random", "anchors": ["src/psion/jose/jwk.py:JsonWebKey.generate", "src/psion/jose/jwa/jwk.py:OCTKey.generate", "src/psion/jose/jwa/jwk.py:RSAKey.generate", "src/psion/jose/jwa/jwk.py:ECKey.generate"]}
{"id": "C138", "title": "Parameters cannot replace the material of a key", "statement": "The material of the key that JsonWebKey.generate or JsonWebKey.parse returns is what was generated or read, whatever parameters are given.", "quantifier": "every call", "why_tests_cant": "the parameters that break it carry names the caller is not expected to use", "anchors": ["src/psion/jose/jwk.py:JsonWebKey.generate", "src/psion/jose/jwk.py:JsonWebKey.parse"]}
{"id": "C139", "title": "Which URL carries which parameters", "statement": "urlencode(url, **params) is the URL, a question mark and the parameters that are not None, each as its quoted name and the quoted text of its value, in their order; it raises TypeError for a parameter called url and UnicodeEncodeError for a text with a surrogate.", "quantifier": "every URL and every dict of texts, integers, booleans and None", "why_tests_cant": "an infinite space of names and values", "anchors": ["src/psion/webtools.py:urlencode"]}
{"id": "C140", "title": "The first failing check decides the error of claims", "statement": "JsonWebTokenClaims and IDToken raise the exception of the first check that fails, in a fixed order (a non-empty dict, the registered claims at the time of reading, for an ID token the authentication time and the nonce, the options of the caller), and keep exactly the claims that are not None if all hold.", "quantifier": "every value, options and reading of the clock", "why_tests_cant": "all combinations of failures", "anchors": ["src/psion/jose/jwt.py:JsonWebTokenClaims", "src/psion/oidc/claims.py:IDToken"]}
{"id": "C141", "title": "The first failing check decides the error of a token that is made and signed", "statement": "JsonWebSignatureHeader and JsonWebToken raise the exception of the first check of the header, then of the claims, that fails, and UnicodeEncodeError last if the claims cannot be written; serialize and encode raise InvalidKey for something that is no key or a key whose alg, kid, use or key_ops forbid it, UnicodeEncodeError for a header that cannot be written, InvalidKey for a key of another kind or without private part, and ValueError for an RSA key too small for the digest, in this order, and return a token otherwise.", "quantifier": "every header, claims, payload and constructible key", "why_tests_cant": "all combinations of failures", "anchors": ["src/psion/jose/jws.py:JsonWebSignatureHeader", "src/psion/jose/jws.py:JsonWebSignature.serialize", "src/psion/jose/jwt.py:JsonWebToken.__init__", "src/psion/jose/jwt.py:JsonWebToken.encode", "src/psion/jose/jwa/jws.py:JWSAlgorithm.validate_key"]}
{"id": "C142", "title": "Which key JsonWebKey.parse reads", "statement": "JsonWebKey.parse makes exactly the key that the file or the given bytes hold: of a symmetric key the Base64 text or the bytes themselves, of an RSA or EC key the numbers that the PEM reader returns for a private or public text, without the private ones if a public key is asked for, with the options as other members; otherwise it raises the exception of the first of its checks that fails (algorithm, file, format, asymmetric text for a symmetric key, Base64, neither private nor public text, the PEM reader, kind of key or curve, private key asked for in a public text).", "quantifier": "every file system, argument, algorithm, format and options not named like a member of a key; every PEM reader that returns valid keys", "why_tests_cant": "the content of files is arbitrary", "anchors": ["src/psion/jose/jwk.py:JsonWebKey.parse", "src/psion/jose/jwa/jwk.py:OCTKey.parse", "src/psion/jose/jwa/jwk.py:RSAKey.parse", "src/psion/jose/jwa/jwk.py:ECKey.parse", "src/psion/jose/jwa/jwk.py:_parse_raw"]}
{"id": "C143", "title": "What a login does", "statement": "A login by a visitor without a session shows the form again, without a message and without effect, unless the form is valid (address and password not blank, a password of 8 to 64 characters); with a valid form it shows 'Invalid Credentials.', without effect, unless the password is that of the account of this address; otherwise it redirects to the address named by 'next', or to the home page, with the cookie of a session of this account. The account of an address is the first one that has it, so that a second user with the same address cannot log in.", "quantifier": "every login attempt, data base and execution", "why_tests_cant": "forms and data bases are unbounded", "anchors": ["example/views/auth.py:LoginView.post", "example/forms/login.py:LoginForm"]}
{"id": "C144", "title": "Which pages the application serves", "statement": "A request with the session of a user who is no longer there is answered with 400, one with a method that the page does not offer with 405, and no other one with either; neither changes the data base. The home, login, logout and error pages otherwise show their template or redirect as written, the error page with the last 'error_description' of the query.", "quantifier": "every page, request, data base and execution", "why_tests_cant": "methods, cookies and data bases are unbounded", "anchors": ["example/views/auth.py:LoginView.get", "example/views/auth.py:LogoutView", "example/views/connect.py:ErrorEndpoint", "example/main.py:routes", "example/middlewares/authentication.py:SessionAuthBackend.authenticate"]}
{"id": "C145", "title": "Which JSON text a value has", "statement": "json_dumps gives, for every value, the one text that RFC 8259 and the documentation of json.dumps with ensure_ascii=False prescribe: members and elements in their order, a comma and a space or a colon and a space between them, the short escapes, \\u00 and two lower-case hexadecimal digits for other control characters, every other character as itself. Its UTF-8 encoding fails, with UnicodeEncodeError, exactly for a value with a surrogate.", "quantifier": "every value made of None, booleans, integers, floats, texts, lists and dicts", "why_tests_cant": "values nest without bound and texts are unbounded", "anchors": ["src/psion/webtools.py:json_dumps"]}
{"id": "C146", "title": "Which token is written", "statement": "JsonWebSignature.serialize gives a token exactly when the key permits the header and its material can sign for the algorithm the header names. The token is then the base64url text of the JSON text of the header without its None items, a dot, the base64url text of the payload, a dot, and the base64url text of the signature that the key makes over everything before that dot: HMAC, RSASSA-PKCS1-v1_5, RSASSA-PSS or ECDSA in DER, with the digest the name of the algorithm prescribes; nothing for the algorithm none. JsonWebToken.encode does the same with the JSON text of the claims without their None items.", "quantifier": "every header dict, payload, claims dict, key that a constructor gives, back end whose signatures are octets it verifies, and random octets", "why_tests_cant": "a round trip accepts any text that is read back the same way, also one that signs less than it carries or names another digest; a token is compared with finitely many samples", "anchors": ["src/psion/jose/jws.py:JsonWebSignature.serialize", "src/psion/jose/jwt.py:JsonWebToken.encode", "src/psion/jose/jwa/jws.py:_HMAC.sign", "src/psion/jose/jwa/jws.py:_RSA_PKCS1v15.sign", "src/psion/jose/jwa/jws.py:_EC.sign", "src/psion/jose/jwa/jws.py:_RSA_PSS.sign", "src/psion/jose/jwa/jwk.py:OCTKey.sign", "src/psion/jose/jwa/jwk.py:RSAKey.sign", "src/psion/jose/jwa/jwk.py:ECKey.sign"]}
{"id": "C147", "title": "What a key signs", "statement": "JsonWebKey.sign returns the HMAC of the data under the secret, the ECDSA signature in DER, or the RSASSA-PKCS1-v1_5 or RSASSA-PSS signature, with the hash that is named or given as a member of ALGORITHMS. Otherwise the first of these decides the exception: further arguments other than rsa_padding for RSA and none for the others (TypeError), no private part (InvalidKey), a hash that is neither a member nor a text (AttributeError), an unknown name (KeyError), an unknown padding (InvalidKey), a modulus without room for the digest (ValueError).", "quantifier": "every key, data, hash argument and further arguments", "why_tests_cant": "the arguments are arbitrary values and the order of the checks differs between the classes", "anchors": ["src/psion/jose/jwk.py:JsonWebKey.sign", "src/psion/jose/jwa/jwk.py:_get_alg", "src/psion/jose/jwa/jwk.py:OCTKey.sign", "src/psion/jose/jwa/jwk.py:RSAKey.sign", "src/psion/jose/jwa/jwk.py:ECKey.sign"]}
{"id": "C148", "title": "What a key verifies", "statement": "JsonWebKey.verify returns for exactly the signatures of the data under the key, the named hash and padding; ECDSA signatures only as DER with both numbers in range. Otherwise the first failing check decides the exception, in the order of C147 without the private part, and InvalidSignature last. What the key signs, the key and its public part verify.", "quantifier": "every key, signature, data, hash argument and further arguments", "why_tests_cant": "all octet strings and keys, and agreement of two classes of code", "anchors": ["src/psion/jose/jwk.py:JsonWebKey.verify", "src/psion/jose/jwa/jwk.py:_get_alg", "src/psion/jose/jwa/jwk.py:OCTKey.verify", "src/psion/jose/jwa/jwk.py:RSAKey.verify", "src/psion/jose/jwa/jwk.py:ECKey.verify"]}
{"id": "C149", "title": "What is accepted was issued", "statement": "For any set of tokens that were made with keys of whatever kind: a JWS or JWT that deserialize or decode accepts, with an algorithm stated by the caller or the key, is one of those that were signed (same header and payload, same claims), or it carries a valid signature over a text that none of these tokens was signed over.", "quantifier": "every set of issued tokens, key, algorithm, token and reading of the clock", "why_tests_cant": "a claim about every attacker and every history of the key", "anchors": ["src/psion/jose/jws.py:JsonWebSignature.deserialize", "src/psion/jose/jws.py:JsonWebSignature.serialize", "src/psion/jose/jwt.py:JsonWebToken.decode", "src/psion/jose/jwt.py:JsonWebToken.encode"]}
{"id": "C150", "title": "An accepted ID token tells who logged in where", "statement": "For any set of responses of the token endpoint: a JWT that a client accepts, with an algorithm stated, is the ID token of one of them, which exchanged a code stored for the user whose claims it has with the client it names as audience, and it is bound to the access token of that response; or its signature was made for no ID token of these responses.", "quantifier": "every set of executions of the token endpoint, key, token and reading of the clock", "why_tests_cant": "a claim about every attacker and every history of the provider", "anchors": ["src/psion/oidc/flows/authorization_code.py:AuthorizationCodeFlow._generate_id_token", "src/psion/oauth2/endpoints/token.py:TokenEndpoint.__call__", "src/psion/jose/jwt.py:JsonWebToken.decode"]}
{"id": "C151", "title": "An access token does not pass for an ID token", "statement": "No access token that the example issues is accepted where an ID token is expected.", "quantifier": "every exchange of the example application and every client", "why_tests_cant": "the confusion needs a client that decodes a token of the other kind", "anchors": ["example/adapter.py:Adapter.create_access_token", "example/adapter.py:Adapter.get_key_info", "src/psion/oidc/flows/authorization_code.py:AuthorizationCodeFlow._generate_id_token", "src/psion/jose/jwt.py:JsonWebToken.decode"]}
{"id": "C152", "title": "What the conversion helpers give for every argument", "statement": "For every bytes, None, bool, int, float, str, list and dict: to_bytes, to_string, base64url_encode, base64url_decode, b64_to_int, int_to_b64, json_loads and secret_token give the value their documentation describes, None where they let None pass, and otherwise the exception of Python that the table names: TypeError for a list or dict, and also for None where Base64 is asked for, for a str given to base64url_decode, for a number given to to_string, b64_to_int or json_loads, and for a token size that is not a positive integer; ValueError for what int_to_b64 cannot write.", "quantifier": "every argument of the named types", "why_tests_cant": "infinitely many arguments of eight types", "anchors": ["src/psion/webtools.py:to_bytes", "src/psion/webtools.py:to_string", "src/psion/webtools.py:base64url_decode", "src/psion/webtools.py:base64url_encode", "src/psion/webtools.py:b64_to_int", "src/psion/webtools.py:int_to_b64", "src/psion/webtools.py:json_loads", "src/psion/webtools.py:secret_token"]}
{"id": "C153", "title": "The conversion helpers lead back", "statement": "The bytes that to_bytes makes of a str or number are read back as its text by to_string; what base64url_encode makes of any argument is decoded to the bytes of that argument; the text of every positive integer, True among them, is read back as the integer, as bytes and as str; the JSON text of a value is read back as the value, as bytes and as str.", "quantifier": "every argument", "why_tests_cant": "infinitely many arguments", "anchors": ["src/psion/webtools.py:to_bytes", "src/psion/webtools.py:to_string", "src/psion/webtools.py:base64url_encode", "src/psion/webtools.py:b64_to_int", "src/psion/webtools.py:int_to_b64", "src/psion/webtools.py:json_loads"]}
{"id": "C154", "title": "to_string takes what to_bytes takes", "statement": "to_string, documented for data of any type, gives a text for every argument that to_bytes gives bytes for.", "quantifier": "every argument", "why_tests_cant": "needs an argument of a type that the library itself does not use", "anchors": ["src/psion/webtools.py:to_string", "src/psion/webtools.py:to_bytes"]}
{"id": "C155", "title": "b64_to_int raises the documented exception", "statement": "b64_to_int raises TypeError, as documented, for data that is not a URL safe Base64 string.", "quantifier": "every argument", "why_tests_cant": "needs malformed texts of three kinds", "anchors": ["src/psion/webtools.py:b64_to_int"]}
{"id": "C156", "title": "A code needs the user's consent", "statement": "The authorization page of the example application gives a client a code only after the user agreed to it.", "quantifier": "every request, client and user", "why_tests_cant": "tests log in and follow the link as the same person", "anchors": ["example/views/connect.py:AuthorizationEndpoint", "src/psion/oauth2/endpoints/authorization.py:AuthorizationEndpoint"]}
{"id": "C157", "title": "Authentication requests are honoured", "statement": "The parameters of OpenID Connect Core section 3.1.2.1 about the authentication are honoured: prompt=login and max_age lead to a new login, prompt=consent to a question, prompt=none to an error instead of a login page.", "quantifier": "every pair of requests that differ in these parameters only; every request without a session", "why_tests_cant": "needs pairs of requests with the same answers", "anchors": ["example/views/connect.py:AuthorizationEndpoint", "src/psion/oauth2/endpoints/authorization.py:AuthorizationEndpoint"]}
{"id": "C158", "title": "Sessions end by themselves", "statement": "A session of the example application is no longer found some time after the login.", "quantifier": "every history of the application, of any length", "why_tests_cant": "needs waiting", "anchors": ["example/middlewares/authentication.py", "example/views/auth.py:LoginView", "example/models/sessions.py"]}
{"id": "C159", "title": "Guesses of the password are limited", "statement": "After many wrong logins an account cannot be logged in to for a while.", "quantifier": "every history of wrong logins, interleaving at calls", "why_tests_cant": "needs histories of any length", "anchors": ["example/views/auth.py:LoginView"]}
{"id": "C160", "title": "The scope may be left out", "statement": "RFC 6749 section 3.3: an authorization request without a scope is processed with a default or answered with invalid_scope.", "quantifier": "every request and every behaviour of the application", "why_tests_cant": "needs every combination of the checks that come first", "anchors": ["src/psion/oauth2/grants/authorization_code.py:AuthorizationCodeGrant", "src/psion/oauth2/endpoints/authorization.py:AuthorizationEndpoint"]}
{"id": "C161", "title": "The redirect URI may be left out", "statement": "RFC 6749 sections 3.1.2.3 and 4.1.1: an authorization request without a redirect URI uses the only one that the client registered.", "quantifier": "every request and every behaviour of the application", "why_tests_cant": "needs every client", "anchors": ["src/psion/oauth2/endpoints/authorization.py:AuthorizationEndpoint"]}
{"id": "C162", "title": "A token may be bytes or str, and nothing else", "statement": "JsonWebToken.decode gives the same for a token as str and as its UTF-8 bytes, and accepts no other type; JsonWebSignature.deserialize accepts bytes only. What is accepted has three segments.", "quantifier": "every token of type bytes, None, bool, int, float, str, list or dict, every key, algorithm, option and clock", "why_tests_cant": "infinitely many tokens of eight types", "anchors": ["src/psion/jose/jwt.py:JsonWebToken.decode", "src/psion/jose/jws.py:JsonWebSignature.deserialize", "src/psion/webtools.py:to_bytes"]}
{"id": "C163", "title": "A token of another type is refused with an error of the library", "statement": "Whatever is given as token, decode and deserialize refuse it, if they do, with an exception of psion.jose.exceptions.", "quantifier": "every token of the named types", "why_tests_cant": "needs a token of a type that callers do not use", "anchors": ["src/psion/jose/jwt.py:JsonWebToken.decode", "src/psion/jose/jws.py:JsonWebSignature.deserialize"]}
{"id": "C164", "title": "A payload of any type is carried as its bytes", "statement": "A JsonWebSignature whose payload is bytes, a str or a number gives the token of the payload's bytes, which deserialize gives back; for None, lists, dicts and a str without UTF-8 encoding no token is made.", "quantifier": "every payload of the named types, header and constructible key", "why_tests_cant": "infinitely many payloads of eight types", "anchors": ["src/psion/jose/jws.py:JsonWebSignature.__init__", "src/psion/jose/jws.py:JsonWebSignature.serialize", "src/psion/webtools.py:base64url_encode"]}
{"id": "C165", "title": "A changed key still uses the key it was made with", "statement": "Whatever is assigned to, updated in or deleted from the members of a JsonWebKey (key.data) after it was made, a token it accepts is unsigned or carries a signature that is valid for the key it was made with; a token it signs is signed with that key; and dump gives that key's type and parameters.", "quantifier": "every key, every sequence of changes, every token, payload and back end", "why_tests_cant": "infinitely many sequences of changes, tokens and keys", "anchors": ["src/psion/jose/jwk.py:JsonWebKey.__init__", "src/psion/jose/jwk.py:JsonWebKey.dump", "src/psion/jose/jws.py:JsonWebSignature.serialize", "src/psion/jose/jws.py:JsonWebSignature.deserialize"]}
{"id": "C166", "title": "encode writes the claims that the token has", "statement": "The string that JsonWebToken.encode gives decodes to the claims that the object has at the time, also if token.claims was changed.", "quantifier": "every token, every sequence of changes of its claims, every key", "why_tests_cant": "infinitely many claims and changes", "anchors": ["src/psion/jose/jwt.py:JsonWebToken.__init__", "src/psion/jose/jwt.py:JsonWebToken.encode"]}
{"id": "C167", "title": "A token is signed with the algorithm that its header names", "statement": "serialize signs with the algorithm that the header of the object names at the time, also if the header was changed.", "quantifier": "every header, every sequence of changes, every payload and key", "why_tests_cant": "infinitely many headers and changes", "anchors": ["src/psion/jose/jws.py:JsonWebSignatureHeader.__init__", "src/psion/jose/jws.py:JsonWebSignature.serialize"]}
{"id": "C168", "title": "A key set stays valid", "statement": "The keys of a JsonWebKeySet have different ids and get_key finds a key or returns None, also if the list of keys was changed.", "quantifier": "every key set, every appended key, every id", "why_tests_cant": "infinitely many sets, keys and ids", "anchors": ["src/psion/jose/jwk.py:JsonWebKeySet.__init__", "src/psion/jose/jwk.py:JsonWebKeySet.get_key"]}
{"id": "C169", "title": "Answers tell about a client's secret only whether the offered one is right", "statement": "Replace the secrets of clients by others such that what the request offers is right for the same clients, and the attributes of users by any others: for corresponding answers of the adapter the token and revocation endpoints make the same calls in the same order and give the same response; the authorization endpoint and get_consent_data do so whatever the secrets are.", "quantifier": "every request, every adapter behaviour, every assignment of other secrets and attributes", "why_tests_cant": "infinitely many pairs of worlds to compare", "anchors": ["src/psion/oauth2/authentication/methods/client_secret_basic.py:ClientSecretBasic.authenticate", "src/psion/oauth2/authentication/methods/client_secret_post.py:ClientSecretPost.authenticate", "src/psion/oauth2/authentication/methods/none.py:None_.authenticate", "src/psion/oauth2/endpoints/authorization.py:AuthorizationEndpoint.__call__"]}
{"id": "C170", "title": "The pages tell about passwords and secrets only whether the submitted one is right", "statement": "From two data bases that differ only in passwords and client secrets that no request of the history submits, every history of the example application has a counterpart: the same calls in the same interleaving, the same replies, and data bases that again differ only in those.", "quantifier": "every data base, every interleaved history of requests to all pages, every replacement of passwords and secrets", "why_tests_cant": "unbounded histories and pairs of data bases", "anchors": ["example/views/auth.py:LoginView.post", "example/adapter.py:Adapter.find_client", "example/views/connect.py:TokenEndpoint.post", "example/views/connect.py:RevocationEndpoint.post"]}
{"id": "C171", "title": "Parameters appear on the error page only as text", "statement": "Whatever the query of the error page's address holds, the page has one reading as HTML: fixed tags, with the values of error_description and error (None for a missing one) as text in their places. No value becomes markup.", "quantifier": "every request to the error page", "why_tests_cant": "unbounded texts with any characters", "anchors": ["example/views/connect.py:ErrorEndpoint.get", "example/templates/error.j2", "example/templates/base.j2"]}
{"id": "C172", "title": "The login form is posted to the page's own address, and leads back", "statement": "The login page has one reading as HTML: fixed tags but for the addresses of the style sheet and of the form, the CSRF token and the submitted address, each inside the quotes of its attribute, and messages as text; the only form goes to the page's own address and the password is not shown again. A user sent to the login by an authorization request who submits this form, however often it is shown again, is led back to the request once logged in.", "quantifier": "every request to the login page, every message, every number of failed attempts", "why_tests_cant": "unbounded texts and numbers of attempts", "anchors": ["example/views/auth.py:LoginView.get", "example/views/auth.py:LoginView.post", "example/templates/login.j2", "example/forms/login.py:LoginForm", "example/views/connect.py:AuthorizationEndpoint.get"]}
{"id": "C173", "title": "The error page tells the error of the redirection", "statement": "A user agent that follows the library's redirection to the error page is shown the error and the description of the redirection; an authorization request without a redirect URI is shown invalid_request.", "quantifier": "every redirection with every error and description", "why_tests_cant": "unbounded parameters", "anchors": ["example/views/connect.py:ErrorEndpoint.get", "src/psion/oauth2/endpoints/authorization.py:AuthorizationEndpoint.__call__", "example/templates/error.j2"]}
{"id": "C174", "title": "Only the user and the client end sessions and refresh tokens", "statement": "In every history of the example application, however its requests interleave and wherever they stop: a session that ends was ended by a request to the logout page with a session of the same user; a refresh token that disappears was removed by such a logout of its user, or by a request to the revocation endpoint that names it with the credentials of the client it was issued to. If nobody was logged in at first, who logs out has logged in with the user's password.", "quantifier": "every data base, every interleaved history of requests to all pages, every point in it", "why_tests_cant": "unbounded histories and interleavings", "anchors": ["example/views/auth.py:LogoutView.get", "example/views/connect.py:RevocationEndpoint.post", "example/adapter.py:Adapter.revoke_token", "example/middlewares/authentication.py"]}
{"id": "C175", "title": "Who changes what in the data base", "statement": "Between any two points of a history of the example application, however its requests interleave and wherever they stop: a code appears only by an authorization request with a session of its user, naming its client and one of that client's redirect URIs; it disappears only by a token request of an authenticated client that names it; a refresh token appears only by a token request with the credentials of its client; a session only by a login with the user's password; if nobody was logged in at first, so was the session of the authorization request. Clients, users and accounts never change.", "quantifier": "every data base, every interleaved history of requests to all pages, every two points in it", "why_tests_cant": "unbounded histories and interleavings", "anchors": ["example/views/connect.py:AuthorizationEndpoint.get", "example/views/connect.py:TokenEndpoint.post", "example/views/auth.py:LoginView.post", "example/adapter.py:Adapter.save_authorization_code", "example/adapter.py:Adapter.delete_authorization_code", "example/adapter.py:Adapter.create_refresh_token"]}
{"id": "C176", "title": "The data base stays consistent", "statement": "At every moment of a history of the example application, however its requests interleave and wherever they stop: if at the start the clients have different ids and permit only requested scopes, every account is a user, and the rows were in order, they still are. That is: no code, refresh token or session id twice, and no two refresh tokens for a client and a user; every code belongs to a user and a client there are, its redirect URI is one of the client's, the client may use the response type code, and each of its scopes is supported by the provider and permitted to the client; every refresh token belongs to a user and a client there are, the client may use the grant refresh_token, and each of its scopes is supported and permitted; every session belongs to a user there is.", "quantifier": "every list of requests, interleaving, prefix, table contents in order, key, token, clock and failing access", "why_tests_cant": "Tests look at a few tables after a few requests; that no order of overlapping requests leaves a dangling or excessive row is an invariant of all histories.", "anchors": ["example/adapter.py:Adapter", "example/views/auth.py:LoginView.post", "src/psion/oauth2/grants/base.py:BaseGrant._validate_requested_scopes", "src/psion/oauth2/grants/refresh_token.py:RefreshTokenGrant", "src/psion/oauth2/grants/authorization_code.py:AuthorizationCodeGrant"]}
{"id": "C177", "title": "The tables grow only with clients and users", "statement": "However many requests the example application gets, its data base holds at most one session for each user, and at most one refresh token and one code for each pair of a client and a user, so that requests cannot fill it.", "quantifier": "every list of requests, interleaving and data base in order", "why_tests_cant": "Growth shows only after many requests, and the extra sessions only when logins overlap.", "anchors": ["example/adapter.py:Adapter.save_authorization_code", "example/adapter.py:Adapter.create_refresh_token", "example/views/auth.py:LoginView.post", "example/models/sessions.py:Session", "example/models/tokens.py:AuthorizationCode"]}
{"id": "C178", "title": "Others cannot spoil a code", "statement": "In the example application a code that was saved is found again with what was saved until another token request names it, however requests interleave; so the client it was given to gets its token from a request as RFC 6749 and RFC 7636 want it, if that comes in time and the data base does not fail.", "quantifier": "every list of requests, interleaving and data base in which no code is stored twice", "why_tests_cant": "Only some interleavings of some requests would remove or change the code; tests run one flow at a time.", "anchors": ["example/adapter.py:Adapter.save_authorization_code", "example/adapter.py:Adapter.get_authorization_code", "example/adapter.py:Adapter.delete_authorization_code", "example/views/connect.py:TokenEndpoint.post", "src/psion/oauth2/grants/authorization_code.py:AuthorizationCodeGrant.token"]}
{"id": "C179", "title": "A refresh token lasts", "statement": "In the example application a refresh token that was given out is found again, always with the same row, until its client revokes it or its user logs out, however requests interleave; so its client gets new tokens for the same user and the scopes of that row from a request as RFC 6749 wants it, if that comes in time and the data base does not fail.", "quantifier": "every list of requests, interleaving and data base in which no refresh token is stored twice", "why_tests_cant": "Only some interleavings of some requests would remove or change the token; tests run one flow at a time.", "anchors": ["example/adapter.py:Adapter.create_refresh_token", "example/adapter.py:Adapter.get_refresh_token", "example/adapter.py:Adapter.revoke_token", "example/views/connect.py:TokenEndpoint.post", "src/psion/oauth2/grants/refresh_token.py:RefreshTokenGrant.token"]}
{"id": "C180", "title": "A login lasts", "statement": "In the example application the session whose cookie a login gave is found again, with its user, until the user logs out, however requests interleave; so an authorization request with that cookie, after the login, as RFC 6749 and RFC 7636 want it sends them back to the client with a code that is stored for them, if the data base does not fail.", "quantifier": "every list of requests, interleaving and data base in which no user or client is stored twice", "why_tests_cant": "Only some interleavings of some requests would end the session or change its user; tests run one flow at a time.", "anchors": ["example/views/auth.py:LoginView.post", "example/middlewares/authentication.py:SessionAuthBackend.authenticate", "example/views/connect.py:AuthorizationEndpoint.get", "example/adapter.py:Adapter.save_authorization_code"]}
{"id": "C181", "title": "The flow completes whatever others do", "statement": "In the example application, however requests interleave, a user who logged in and authorizes a client before they log out is sent back to it with a code, and the client gets an access token of that user with the requested scopes for the code, unless another token request names that code; each request being as RFC 6749 and RFC 7636 want it, in time, and the data base not failing.", "quantifier": "every list of requests, interleaving and data base in which no user, client or code is stored twice", "why_tests_cant": "Which interleavings of which requests could break a flow is not enumerable; tests run the steps one after the other.", "anchors": ["example/views/auth.py:LoginView.post", "example/middlewares/authentication.py:SessionAuthBackend.authenticate", "example/views/connect.py:AuthorizationEndpoint.get", "example/views/connect.py:TokenEndpoint.post", "example/adapter.py:Adapter.save_authorization_code", "example/adapter.py:Adapter.get_authorization_code"]}
{"id": "C182", "title": "Answers hand out only the tokens made for them", "statement": "An answer of the example application has an access token or a refresh token only if it is one of the token page, the token was made for this very request, and the request proved to be the client that it was made for; the refresh token is then stored for that client, however requests interleave.", "quantifier": "every page, request, execution, interleaving and data base", "why_tests_cant": "That no page ever answers with the token of another client is about all requests and states; tests look at the answers of some.", "anchors": ["example/views/connect.py:TokenEndpoint.post", "example/views/connect.py:RevocationEndpoint.post", "src/psion/oauth2/endpoints/token.py:TokenEndpoint", "example/adapter.py:Adapter.create_refresh_token"]}
{"id": "C183", "title": "Tokens are for the user of what was presented", "statement": "A refresh token that an answer of the example application hands out is stored for the client that the request proved to be and for the user of the code or refresh token of that client which the request presented; an access token is made for that user, or for the client itself with the grant type client_credentials, however requests interleave.", "quantifier": "every page, request, execution, interleaving and data base", "why_tests_cant": "That no interleaving of requests gives a client the token of another user is about all logs; tests run a few.", "anchors": ["example/views/connect.py:TokenEndpoint.post", "src/psion/oauth2/endpoints/token.py:TokenEndpoint", "example/adapter.py:Adapter.create_refresh_token", "example/adapter.py:Adapter.create_access_token", "src/psion/oauth2/grants/authorization_code.py:AuthorizationCodeGrant.token", "src/psion/oauth2/grants/refresh_token.py:RefreshTokenGrant.token"]}
