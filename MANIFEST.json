{
 "claims": [
  {
   "property": "C01",
   "status": "proved",
   "theorems": [
    "C01_base64url_roundtrip"
   ],
   "note": "Round trip, equality with a bit-level RFC 4648 encoder, alphabet and length, for every byte string."
  },
  {
   "property": "C02",
   "status": "proved",
   "theorems": [
    "C02_int_roundtrip",
    "C02_int_negative"
   ],
   "note": "Positive integers round-trip through the shortest big-endian form; negatives give ValueError."
  },
  {
   "property": "C03",
   "status": "partial",
   "theorems": [
    "C03_int_emitted_accepted_refuted",
    "C03_int_emitted_accepted_partial"
   ],
   "note": "REFUTED at 0: int_to_b64(0) is the empty string, which b64_to_int rejects with ValueError. Proved for every other integer."
  },
  {
   "property": "C04",
   "status": "proved",
   "theorems": [
    "C04_to_string"
   ],
   "note": "Against a bit-level RFC 3629 encoder; the fallback text only has base64url characters."
  },
  {
   "property": "C05",
   "status": "proved",
   "theorems": [
    "C05_json_roundtrip",
    "C05_json_roundtrip_bytes"
   ],
   "note": "Float-free values; recursion and 4300-digit limits of CPython not modelled."
  },
  {
   "property": "C06",
   "status": "proved",
   "theorems": [
    "C06_fulldict_no_none",
    "C06_fulldict_update_refuted"
   ],
   "note": "Construction followed by any assignment sequence. Extra finding: update() can store None."
  },
  {
   "property": "C07",
   "status": "proved",
   "theorems": [
    "C07_query_roundtrip"
   ],
   "note": "Every dict of strings with non-empty values; strings must be UTF-8 encodable."
  },
  {
   "property": "C08",
   "status": "partial",
   "theorems": [
    "C08_redirect_params_refuted",
    "C08_redirect_params_fragment_refuted",
    "C08_redirect_params_name_refuted",
    "C08_redirect_params_partial"
   ],
   "note": "REFUTED when the base URL already has a query or a fragment, and for a parameter called url, which raises TypeError. Proved for URLs and parameters with none of these. Exactly which URL comes out in each case is C139."
  },
  {
   "property": "C09",
   "status": "proved",
   "theorems": [
    "C09_secret_token"
   ],
   "note": "Bijection between choice sequences and tokens of the alphabet, hence 64^n equally likely tokens."
  },
  {
   "property": "C10",
   "status": "proved",
   "theorems": [
    "C10_basic_roundtrip",
    "C10_basic_iff"
   ],
   "note": "Round trip in any letter case and white space; exact iff against the header grammar, Base64 and UTF-8 specifications of SpecReaders.v."
  },
  {
   "property": "C11",
   "status": "partial",
   "theorems": [
    "C11_extraction_never_raises_refuted",
    "C11_basic_raises_iff_partial",
    "C11_bearer_raises_iff_partial"
   ],
   "note": "REFUTED: \"Basic \" and a non-ASCII Basic token raise ValueError. Exact iff-characterisation proved; no other exception escapes."
  },
  {
   "property": "C12",
   "status": "proved",
   "theorems": [
    "C12_bearer_iff",
    "C12_bearer_other"
   ],
   "note": "Exact iff against the header grammar; None for other schemes."
  },
  {
   "property": "C13",
   "status": "proved",
   "theorems": [
    "C13_location_safe",
    "C13_location_iff"
   ],
   "note": "Every URL; pass-through for RFC 3986 characters; exactly which text comes out."
  },
  {
   "property": "C14",
   "status": "proved",
   "theorems": [
    "C14_half_hash"
   ],
   "note": "For every hash oracle returning bytes."
  },
  {
   "property": "C15",
   "status": "proved",
   "theorems": [
    "C15_accepts_only",
    "C15_unsupported",
    "C15_accepts",
    "C15_key_iff",
    "C15_members"
   ],
   "note": "C15_key_iff: a dict makes a key exactly if its members describe one (SpecJwkErr.v), for every back end. The range checks of the cryptography package are modelled."
  },
  {
   "property": "C16",
   "status": "partial",
   "theorems": [
    "C16_private_dump_reloads_partial",
    "C16_public_dump_reloads_partial",
    "C16_zero_coordinate_refuted"
   ],
   "note": "Proved for every key except an EC key with a coordinate equal to 0, for which the public dump does not reload (witness). Same statement for public dumps."
  },
  {
   "property": "C17",
   "status": "proved",
   "theorems": [
    "C17_public_dump_has_no_private_member",
    "C17_public_dump_noninterference"
   ],
   "note": "Noninterference: dicts that agree outside of the private members have equal public dumps."
  },
  {
   "property": "C18",
   "status": "partial",
   "theorems": [
    "C18_symmetric_refuted",
    "C18_oth_refuted"
   ],
   "note": "REFUTED: the public dump of every symmetric key contains k; the oth member of an RSA key is kept. See C17 for what holds."
  },
  {
   "property": "C19",
   "status": "partial",
   "theorems": [
    "C19_symmetric_export_refuted",
    "C19_export_iff_partial",
    "C19_nested_partial"
   ],
   "note": "REFUTED for every non-empty secret: export never returns the base64 of the secret. Proved: the export is the Base64 of what the secret, itself read as Base64, stands for."
  },
  {
   "property": "C20",
   "status": "proved",
   "theorems": [
    "C20_accepts_iff",
    "C20_get_key",
    "C20_get_key_any"
   ],
   "note": "Accept-iff for string ids; lookup exact for every hashable id."
  },
  {
   "property": "C21",
   "status": "partial",
   "theorems": [
    "C21_dump_load_partial",
    "C21_private_dump_succeeds",
    "C21_load_rejects"
   ],
   "note": "Proved for private and public dumps of key sets without an EC coordinate equal to 0 (see C16)."
  },
  {
   "property": "C22",
   "status": "partial",
   "theorems": [
    "C22_pem_markers_refused_partial",
    "C22_der_refuted",
    "C22_encrypted_private_key_refuted"
   ],
   "note": "Proved for format pem and the listed markers. REFUTED for format der and for the label ENCRYPTED PRIVATE KEY."
  },
  {
   "property": "C23",
   "status": "proved",
   "theorems": [
    "C23_jws_roundtrip"
   ],
   "note": "Under the stated contract of the back end for the signing key (backend_correct); header and payload of JSON data without floats."
  },
  {
   "property": "C24",
   "status": "proved",
   "theorems": [
    "C24_accepted_tokens",
    "C24_pinned_algorithm"
   ],
   "note": "accepts is stated over the back end functions. Exact characterisation of the accepted tokens, and the corollary for a pinned algorithm."
  },
  {
   "property": "C25",
   "status": "partial",
   "theorems": [
    "C25_unsigned_accepted_refuted",
    "C25_signed_partial"
   ],
   "note": "REFUTED: alg none is accepted when no algorithm is pinned and the key states none. Proved when either does."
  },
  {
   "property": "C26",
   "status": "proved",
   "theorems": [
    "C26_key_kinds",
    "C26_mac_unused"
   ],
   "note": ""
  },
  {
   "property": "C27",
   "status": "proved",
   "theorems": [
    "C27_key_restrictions"
   ],
   "note": ""
  },
  {
   "property": "C28",
   "status": "partial",
   "theorems": [
    "C28_key_ops_refuted",
    "C28_other_operations_partial"
   ],
   "note": "REFUTED: a key with key_ops [verify] signs and one with [sign] verifies. Proved: a key with any operation other than sign and verify does neither."
  },
  {
   "property": "C29",
   "status": "proved",
   "theorems": [
    "C29_header_validation"
   ],
   "note": ""
  },
  {
   "property": "C30",
   "status": "partial",
   "theorems": [
    "C30_unknown_critical_refuted",
    "C30_b64_false_partial"
   ],
   "note": "REFUTED: any extension name with a truthy value is accepted. b64 false is rejected."
  },
  {
   "property": "C31",
   "status": "proved",
   "theorems": [
    "C31_three_segments"
   ],
   "note": "An equivalence: a token gets past the check iff it has exactly three segments."
  },
  {
   "property": "C32",
   "status": "partial",
   "theorems": [
    "C32_foreign_exceptions_refuted",
    "C32_exceptions_partial"
   ],
   "note": "REFUTED: TypeError, ValueError, binascii.Error and JSONDecodeError escape. The exact set of exceptions is proved."
  },
  {
   "property": "C33",
   "status": "partial",
   "theorems": [
    "C33_malleable_refuted",
    "C33_mac_bytes_partial"
   ],
   "note": "REFUTED for every accepted token (characters outside of the alphabet are ignored). For a MAC the decoded signature bytes are proved unique."
  },
  {
   "property": "C34",
   "status": "partial",
   "theorems": [
    "C34_jwt_roundtrip_partial",
    "C34_null_claims_refuted"
   ],
   "note": "Proved under the back end contract when some claim is not None; REFUTED for claims that are all None (encoded, then rejected)."
  },
  {
   "property": "C35",
   "status": "partial",
   "theorems": [
    "C35_falsy_times_refuted",
    "C35_times_partial"
   ],
   "note": "REFUTED: falsy values (0, False, empty text) are not checked. Proved for every other value."
  },
  {
   "property": "C36",
   "status": "proved",
   "theorems": [
    "C36_registered_claims",
    "C36_errors"
   ],
   "note": ""
  },
  {
   "property": "C37",
   "status": "partial",
   "theorems": [
    "C37_break_refuted",
    "C37_falsy_value_refuted",
    "C37_options_partial",
    "C37_options_iff_partial",
    "C37_options_complete"
   ],
   "note": "REFUTED: a matching list claim ends the loop over the options; falsy expected values are not compared. Proved up to the option at which the loop stops; the converse holds in full, and C37_options_iff_partial says exactly which options are checked."
  },
  {
   "property": "C38",
   "status": "partial",
   "theorems": [
    "C38_timezone_refuted",
    "C38_offset",
    "C38_utc_partial"
   ],
   "note": "REFUTED: utcnow().timestamp() is off by the UTC offset of the host. Proved for offset 0. Float rounding is not modelled."
  },
  {
   "property": "C39",
   "status": "proved",
   "theorems": [
    "C39_only_json_objects"
   ],
   "note": ""
  },
  {
   "property": "C40",
   "status": "proved",
   "theorems": [
    "C40_unchecked_decode",
    "C40_decode_iff"
   ],
   "note": ""
  },
  {
   "property": "C41",
   "status": "partial",
   "theorems": [
    "C41_auth_time_refuted",
    "C41_nonce_partial"
   ],
   "note": "REFUTED for auth_time (the code reads max_age). Proved for the nonce."
  },
  {
   "property": "C42",
   "status": "proved",
   "theorems": [
    "C42_authentication_sound",
    "C42_authentication_complete"
   ],
   "note": "Sound, and complete for credentials in canonical form given by one method."
  },
  {
   "property": "C43",
   "status": "partial",
   "theorems": [
    "C43_two_methods_refuted",
    "C43_basic_first_partial"
   ],
   "note": "REFUTED: a request with a Basic header and body credentials of another client is accepted. Proved: the Basic header decides."
  },
  {
   "property": "C44",
   "status": "proved",
   "theorems": [
    "C44_not_from_url"
   ],
   "note": "The two authentication programs are equal."
  },
  {
   "property": "C45",
   "status": "proved",
   "theorems": [
    "C45_code_saved",
    "C45_code_sent"
   ],
   "note": "For applications that raise no OAuth2Error of their own and a secret_token that is not empty (C09)."
  },
  {
   "property": "C46",
   "status": "partial",
   "theorems": [
    "C46_open_redirect_refuted",
    "C46_no_open_redirect_partial"
   ],
   "note": "REFUTED: open redirect without a user or with an unsupported response type. Proved for requests with a user and the response type code."
  },
  {
   "property": "C47",
   "status": "partial",
   "theorems": [
    "C47_state_dropped_refuted",
    "C47_state_partial",
    "C47_state_consent_partial"
   ],
   "note": "REFUTED: access_denied and the consent error for a missing scope drop the state. Proved for requests with a user / a scope."
  },
  {
   "property": "C48",
   "status": "proved",
   "theorems": [
    "C48_scopes"
   ],
   "note": ""
  },
  {
   "property": "C49",
   "status": "proved",
   "theorems": [
    "C49_challenge_saved",
    "C49_pkce_enforced"
   ],
   "note": "Premise: SHA-256 yields octets."
  },
  {
   "property": "C50",
   "status": "proved",
   "theorems": [
    "C50_code_bound"
   ],
   "note": "Premise: SHA-256 yields octets."
  },
  {
   "property": "C51",
   "status": "proved",
   "theorems": [
    "C51_code_deleted",
    "C51_code_deleted_endpoint"
   ],
   "note": "For all results and exceptions of all calls, cancellation included."
  },
  {
   "property": "C52",
   "status": "proved",
   "theorems": [
    "C52_single_use",
    "C52_provenance",
    "C52_example_adapter"
   ],
   "note": "For stores that honour the contract (the example adapter does, also proved) and codes that are not given twice."
  },
  {
   "property": "C53",
   "status": "partial",
   "theorems": [
    "C53_race_refuted",
    "C53_provenance_partial",
    "C53_exclusive_partial"
   ],
   "note": "REFUTED: two interleaved requests both exchange one code, with the example adapter. Proved: provenance, and single use when lookup and deletion exclude each other."
  },
  {
   "property": "C54",
   "status": "proved",
   "theorems": [
    "C54_single_use",
    "C54_provenance",
    "C54_unsent_tokens"
   ],
   "note": "Of responses. C54_unsent_tokens shows that tokens may be created twice."
  },
  {
   "property": "C55",
   "status": "proved",
   "theorems": [
    "C55_token_response"
   ],
   "note": ""
  },
  {
   "property": "C56",
   "status": "partial",
   "theorems": [
    "C56_raises_refuted",
    "C56_missing_code_refuted",
    "C56_no_scopes_refuted",
    "C56_revocation_none_refuted",
    "C56_token_partial",
    "C56_revocation_partial"
   ],
   "note": "REFUTED: KeyError, UnicodeEncodeError, ValueError, TypeError escape, and revocation returns None. Proved: without hooks nothing else can happen."
  },
  {
   "property": "C57",
   "status": "proved",
   "theorems": [
    "C57_registered_grants"
   ],
   "note": ""
  },
  {
   "property": "C58",
   "status": "proved",
   "theorems": [
    "C58_refresh"
   ],
   "note": "For clients whose get_allowed_scopes restricts, as documented."
  },
  {
   "property": "C59",
   "status": "partial",
   "theorems": [
    "C59_no_user_refuted",
    "C59_code_partial",
    "C59_refresh_partial"
   ],
   "note": "REFUTED for the refresh grant (owner None). Proved for the code grant."
  },
  {
   "property": "C60",
   "status": "partial",
   "theorems": [
    "C60_no_revocation_refuted",
    "C60_token_survives_refuted",
    "C60_refresh_again_refuted"
   ],
   "note": "REFUTED: the token endpoint never revokes, with the example adapter every refresh token survives."
  },
  {
   "property": "C61",
   "status": "proved",
   "theorems": [
    "C61_client_credentials",
    "C61_no_refresh_token"
   ],
   "note": ""
  },
  {
   "property": "C62",
   "status": "partial",
   "theorems": [
    "C62_unsupported_scope_refuted",
    "C62_unsupported_refresh_refuted",
    "C62_supported_partial"
   ],
   "note": "REFUTED without scope parameter. Proved when the request names a scope."
  },
  {
   "property": "C63",
   "status": "proved",
   "theorems": [
    "C63_revocation_sound",
    "C63_denied",
    "C63_hint"
   ],
   "note": "For applications that raise no OAuth2Error of their own."
  },
  {
   "property": "C64",
   "status": "proved",
   "theorems": [
    "C64_only_own_token",
    "C64_removed",
    "C64_idempotent"
   ],
   "note": ""
  },
  {
   "property": "C65",
   "status": "partial",
   "theorems": [
    "C65_other_provider_refuted",
    "C65_other_grant_refuted",
    "C65_twice_refuted",
    "C65_add_hook_partial"
   ],
   "note": "REFUTED: the hook table is shared by all providers and grants. Proved: what add_hook does."
  },
  {
   "property": "C66",
   "status": "partial",
   "theorems": [
    "C66_substring_refuted",
    "C66_when_partial",
    "C66_no_hook"
   ],
   "note": "REFUTED: substring test; KeyError for a code without scopes. Proved: the exact condition."
  },
  {
   "property": "C67",
   "status": "proved",
   "theorems": [
    "C67_content"
   ],
   "note": ""
  },
  {
   "property": "C68",
   "status": "partial",
   "theorems": [
    "C68_nonce_lost_refuted",
    "C68_example_adapter_refuted",
    "C68_nonce_saved_partial"
   ],
   "note": "REFUTED: the nonce is stored and never read. Proved: it is stored."
  },
  {
   "property": "C69",
   "status": "proved",
   "theorems": [
    "C69_request_iff",
    "C69_request_error_iff",
    "C69_parameters",
    "C69_no_blank_values"
   ],
   "note": "Both the accepted requests and the raised errors are characterised by equivalences over SpecReaders.v."
  },
  {
   "property": "C70",
   "status": "proved",
   "theorems": [
    "C70_token",
    "C70_revocation",
    "C70_authorization",
    "C70_consent"
   ],
   "note": ""
  },
  {
   "property": "C71",
   "status": "proved",
   "theorems": [
    "C71_consent"
   ],
   "note": ""
  },
  {
   "property": "C72",
   "status": "partial",
   "theorems": [
    "C72_parse_export_partial",
    "C72_parse_raw_secret_partial",
    "C72_nul_refuted"
   ],
   "note": "REFUTED for raw keys with a zero octet (C72_nul_refuted; see C134 for more). Proved for exports that are no file name or are read from a file, under the stated contract of the PEM functions; EC coordinates not 0; symmetric keys in der format only (see C19 for pem)."
  },
  {
   "property": "C73",
   "status": "partial",
   "theorems": [
    "C73_foreign_exceptions_refuted",
    "C73_exceptions_partial"
   ],
   "note": "REFUTED: TypeError, ValueError, binascii.Error and UnicodeEncodeError escape. The exact set of exceptions is proved."
  },
  {
   "property": "C74",
   "status": "proved",
   "theorems": [
    "C74_generate"
   ],
   "note": "Parameters must not name key members."
  },
  {
   "property": "C75",
   "status": "partial",
   "theorems": [
    "C75_ec_width_refuted",
    "C75_octets_partial"
   ],
   "note": "REFUTED: a P-256 point with x = 0 dumps x as the empty text; int_to_b64 uses the shortest form (C02). Proved: the dumped coordinate has all octets exactly if its first octet is not 0."
  },
  {
   "property": "C76",
   "status": "partial",
   "theorems": [
    "C76_ps_salt_refuted"
   ],
   "note": "REFUTED: the salt length is the maximum; a conforming signature is refused."
  },
  {
   "property": "C77",
   "status": "partial",
   "theorems": [
    "C77_es_format_refuted",
    "C77_der_only"
   ],
   "note": "REFUTED: signatures are DER."
  },
  {
   "property": "C78",
   "status": "partial",
   "theorems": [
    "C78_key_size_refuted",
    "C78_rsa_room_partial"
   ],
   "note": "REFUTED: any secret signs, even the empty one. Proved: an RSA key that signs has room for the encoded digest (C78_rsa_room_partial; premise on the back end as in C141)."
  },
  {
   "property": "C79",
   "status": "partial",
   "theorems": [
    "C79_decode_exceptions_refuted",
    "C79_exceptions_partial"
   ],
   "note": "REFUTED: UnicodeEncodeError besides those of C32. The exact set of exceptions is proved."
  },
  {
   "property": "C80",
   "status": "proved",
   "theorems": [
    "C80_code_exchange",
    "C80_authorization",
    "C80_refresh",
    "C80_client_credentials"
   ],
   "note": "No token hooks are run in the code exchange (the OIDC hook is covered by C66/C67)."
  },
  {
   "property": "C81",
   "status": "proved",
   "theorems": [
    "C81_flow",
    "C81_example_adapter"
   ],
   "note": ""
  },
  {
   "property": "C82",
   "status": "proved",
   "theorems": [
    "C82_lineage",
    "C82_example_adapter",
    "C82_history"
   ],
   "note": ""
  },
  {
   "property": "C83",
   "status": "partial",
   "theorems": [
    "C83_broader_token_refuted",
    "C83_first_token_partial"
   ],
   "note": "REFUTED: create_refresh_token of the example adapter returns an existing token of the client and user with its old scopes. Proved: without such a token the new one has the scopes it was created with."
  },
  {
   "property": "C84",
   "status": "proved",
   "theorems": [
    "C84_token",
    "C84_authorization",
    "C84_revocation"
   ],
   "note": "Both requests have at least one parameter (the endpoints refuse requests without any)."
  },
  {
   "property": "C85",
   "status": "partial",
   "theorems": [
    "C85_get_refuted",
    "C85_method_ignored_refuted"
   ],
   "note": "REFUTED: a GET request with all parameters in the URL is answered with a token; the method makes no difference. Credentials in the URL are not used (C44)."
  },
  {
   "property": "C86",
   "status": "partial",
   "theorems": [
    "C86_repeated_refuted",
    "C86_last_value_partial"
   ],
   "note": "REFUTED: of repeated parameters the last value counts, those of the body after those of the URL."
  },
  {
   "property": "C87",
   "status": "partial",
   "theorems": [
    "C87_unknown_code_refuted",
    "C87_refresh_refuted",
    "C87_code_partial"
   ],
   "note": "REFUTED: unknown codes and unknown or expired refresh tokens give invalid_request, refresh tokens of another client invalid_client. Proved: mismatching or expired codes give invalid_grant."
  },
  {
   "property": "C88",
   "status": "partial",
   "theorems": [
    "C88_status_refuted",
    "C88_denied_partial"
   ],
   "note": "REFUTED: the status is always 400. Proved: the error is invalid_client and the header WWW-Authenticate: Basic is sent."
  },
  {
   "property": "C89",
   "status": "partial",
   "theorems": [
    "C89_short_verifier_refuted",
    "C89_plain_partial"
   ],
   "note": "REFUTED: with S256 a verifier of one character is accepted. Proved for the method plain."
  },
  {
   "property": "C90",
   "status": "partial",
   "theorems": [
    "C90_no_default_refuted"
   ],
   "note": "REFUTED: no request without a method gets a code."
  },
  {
   "property": "C91",
   "status": "partial",
   "theorems": [
    "C91_burnt_refuted",
    "C91_authenticated_partial"
   ],
   "note": "REFUTED: any authenticated client deletes the code by presenting it. Proved: only authenticated clients that may use the code grant do."
  },
  {
   "property": "C92",
   "status": "partial",
   "theorems": [
    "C92_existence_refuted",
    "C92_same_error_partial"
   ],
   "note": "REFUTED: the error_description differs. Proved: status, error code and headers are the same."
  },
  {
   "property": "C93",
   "status": "proved",
   "theorems": [
    "C93_token",
    "C93_authorization",
    "C93_consent",
    "C93_revocation"
   ],
   "note": "Without the premise the headers of an OAuth2Error raised by the application are sent as they are."
  },
  {
   "property": "C94",
   "status": "proved",
   "theorems": [
    "C94_signing"
   ],
   "note": "signs_always: the RSA back end does not fail for this key; a premise on the cryptography library."
  },
  {
   "property": "C95",
   "status": "proved",
   "theorems": [
    "C95_exchange"
   ],
   "note": "Completeness: the premises are on the request, the answers of the application and the clock."
  },
  {
   "property": "C96",
   "status": "proved",
   "theorems": [
    "C96_access_token",
    "C96_access_response"
   ],
   "note": "mac_bytes: HMAC returns bytes. The refusal excludes an expiration time of exactly 0, which the library takes as absent."
  },
  {
   "property": "C97",
   "status": "partial",
   "theorems": [
    "C97_disclosure_refuted",
    "C97_only_partial",
    "C97_all_partial",
    "C97_id_token_partial"
   ],
   "note": "REFUTED: created_at is disclosed with the scope profile. Proved: apart from created_at only sub and standard claims of granted scopes, and all of these (the user table has no name)."
  },
  {
   "property": "C98",
   "status": "proved",
   "theorems": [
    "C98_tokens_need_a_login",
    "C98_cookies_need_the_password"
   ],
   "note": "The cookie is authentic (signed by Starlette); accesses to the data base are atomic."
  },
  {
   "property": "C99",
   "status": "proved",
   "theorems": [
    "C99_logout_deletes",
    "C99_sessions_end",
    "C99_refresh_tokens_end"
   ],
   "note": ""
  },
  {
   "property": "C100",
   "status": "partial",
   "theorems": [
    "C100_codes_survive_logout_refuted",
    "C100_after_logout_partial"
   ],
   "note": "REFUTED: a code issued before the logout is still exchanged for tokens afterwards. Proved: a token after the logout, without a new login, goes back to a code stored before."
  },
  {
   "property": "C101",
   "status": "proved",
   "theorems": [
    "C101_login_and_back"
   ],
   "note": "For URLs in the characters of RFC 3986 and an origin without query and fragment."
  },
  {
   "property": "C102",
   "status": "partial",
   "theorems": [
    "C102_open_redirect_refuted",
    "C102_home_partial"
   ],
   "note": "REFUTED for every target: the login redirects to whatever the parameter next names. Proved: without a query, or when already logged in, the redirect is to the home page."
  },
  {
   "property": "C103",
   "status": "partial",
   "theorems": [
    "C103_revocation_refuted",
    "C103_head_refuted",
    "C103_own_pages_partial",
    "C103_revocation_partial"
   ],
   "note": "REFUTED: a revocation request without a token ends in an AttributeError, a HEAD request for the authorization endpoint with a session in a RuntimeError. Proved: the pages that do not call the library always answer; what the revocation page can raise."
  },
  {
   "property": "C104",
   "status": "partial",
   "theorems": [
    "C104_same_token_refuted",
    "C104_unusable_refuted",
    "C104_stored_partial",
    "C104_fresh_partial",
    "C104_until_partial"
   ],
   "note": "REFUTED: while a token of the client and user is stored it is handed out again whatever its expiration; a run gives a token that is refused as expired. Proved: the token is stored for the client and the user; a token newly created by the example works for exactly two weeks, unless it is revoked."
  },
  {
   "property": "C105",
   "status": "proved",
   "theorems": [
    "C105_one_refresh_token"
   ],
   "note": "Accesses to the data base are atomic."
  },
  {
   "property": "C106",
   "status": "proved",
   "theorems": [
    "C106_login_does_not_tell"
   ],
   "note": "The reply, not the time it takes."
  },
  {
   "property": "C107",
   "status": "partial",
   "theorems": [
    "C107_logout_refuted",
    "C107_authorize_refuted",
    "C107_safe_methods_partial"
   ],
   "note": "REFUTED for every GET or HEAD request for the logout page with a session, and for a GET request of the authorization endpoint. Proved for all other pages and for HEAD requests of the authorization endpoint."
  },
  {
   "property": "C108",
   "status": "partial",
   "theorems": [
    "C108_session_shared_refuted",
    "C108_session_started_partial"
   ],
   "note": "REFUTED for every login of a user who has a session. Proved for the others."
  },
  {
   "property": "C109",
   "status": "partial",
   "theorems": [
    "C109_access_token_refuted",
    "C109_no_effect_refuted",
    "C109_refresh_token_partial",
    "C109_history_partial"
   ],
   "note": "REFUTED for access tokens: revocation answers 200 and changes nothing. Proved for refresh tokens revoked by their client."
  },
  {
   "property": "C110",
   "status": "partial",
   "theorems": [
    "C110_replay_refuted"
   ],
   "note": "REFUTED by a run; see also C60 and C109."
  },
  {
   "property": "C111",
   "status": "partial",
   "theorems": [
    "C111_old_code_refuted",
    "C111_day_partial",
    "C111_within_partial"
   ],
   "note": "REFUTED: the example accepts a code for a day. Proved: never when it is a day old; while nobody presented it, it is found throughout that day."
  },
  {
   "property": "C112",
   "status": "proved",
   "theorems": [
    "C112_authorization",
    "C112_consent",
    "C112_revocation"
   ],
   "note": "For OAuth2Errors raised by the library itself; the token endpoint is C55."
  },
  {
   "property": "C113",
   "status": "partial",
   "theorems": [
    "C113_description_refuted",
    "C113_token_partial",
    "C113_authorization_partial",
    "C113_consent_partial",
    "C113_revocation_partial"
   ],
   "note": "REFUTED for every unknown grant type. Proved: every other character is a quotation mark or one of the request."
  },
  {
   "property": "C114",
   "status": "proved",
   "theorems": [
    "C114_loads_iff",
    "C114_loads_error_iff",
    "C114_rfc8259_read",
    "C114_rfc8259_written",
    "C114_json_loads_iff"
   ],
   "note": "Exact iff against an inductive grammar. Finding: octets that are not UTF-8 may be read as null, true or a number, their Base64 text (b\"\\x9e\\xe9e\" is null). Recursion and 4300-digit limits of CPython not modelled; floats are kept as text."
  },
  {
   "property": "C115",
   "status": "proved",
   "theorems": [
    "C115_form_read",
    "C115_form_written",
    "C115_form_iff"
   ],
   "note": "C115_form_iff covers every text; the other theorems well-formed ones."
  },
  {
   "property": "C116",
   "status": "proved",
   "theorems": [
    "C116_words_iff"
   ],
   "note": "White space as in Python, that is Unicode White_Space and U+001C to U+001F."
  },
  {
   "property": "C117",
   "status": "proved",
   "theorems": [
    "C117_base64url_iff",
    "C117_base64url_error_iff",
    "C117_base64url_plain",
    "C117_base64_iff",
    "C117_base64_written"
   ],
   "note": "Non-zero trailing bits and characters outside the alphabets are tolerated, as in CPython."
  },
  {
   "property": "C118",
   "status": "proved",
   "theorems": [
    "C118_token_endpoint",
    "C118_complete"
   ],
   "note": "Grants and methods are arbitrary programs over the adapter and further effects (Ext.v)."
  },
  {
   "property": "C119",
   "status": "proved",
   "theorems": [
    "C119_authentication"
   ],
   "note": ""
  },
  {
   "property": "C120",
   "status": "proved",
   "theorems": [
    "C120_authorization_endpoint",
    "C120_complete"
   ],
   "note": ""
  },
  {
   "property": "C121",
   "status": "proved",
   "theorems": [
    "C121_authorize_hooks"
   ],
   "note": "Hooks are arbitrary programs that return members or raise; they do not change their arguments in place."
  },
  {
   "property": "C122",
   "status": "proved",
   "theorems": [
    "C122_exchange",
    "C122_deleted",
    "C122_request_code"
   ],
   "note": "As C121. A hook that replaces the code by something that is not a text makes the exchange fail without a deletion, which the theorem says."
  },
  {
   "property": "C123",
   "status": "partial",
   "theorems": [
    "C123_registration",
    "C123_isolation_refuted"
   ],
   "note": "REFUTED: grant classes that do not assign a table of their own share that of their base class, also with unrelated grants. Proved: how many objects of the hook each table gets."
  },
  {
   "property": "C124",
   "status": "partial",
   "theorems": [
    "C124_methods",
    "C124_every_class_refuted"
   ],
   "note": "REFUTED: only direct subclasses are used. Proved: the methods of a provider are exactly those of the direct subclasses, and an abstract one makes the provider fail."
  },
  {
   "property": "C125",
   "status": "partial",
   "theorems": [
    "C125_other_hooks_refuted"
   ],
   "note": "REFUTED for every run of the refresh token and client credentials grants: no hook runs."
  },
  {
   "property": "C126",
   "status": "proved",
   "theorems": [
    "C126_token",
    "C126_authorization",
    "C126_revocation"
   ],
   "note": ""
  },
  {
   "property": "C127",
   "status": "proved",
   "theorems": [
    "C127_revocation"
   ],
   "note": ""
  },
  {
   "property": "C128",
   "status": "proved",
   "theorems": [
    "C128_grants_token",
    "C128_grants_authorization",
    "C128_methods"
   ],
   "note": ""
  },
  {
   "property": "C129",
   "status": "proved",
   "theorems": [
    "C129_type",
    "C129_code",
    "C129_credentials",
    "C129_refresh"
   ],
   "note": "The conditions are stated in SpecError.v without functions of the model. Runs that raise (C56) get no answer."
  },
  {
   "property": "C130",
   "status": "proved",
   "theorems": [
    "C130_authorization",
    "C130_consent"
   ],
   "note": ""
  },
  {
   "property": "C131",
   "status": "proved",
   "theorems": [
    "C131_revocation"
   ],
   "note": "That a request without a token gets no answer is part of C56."
  },
  {
   "property": "C132",
   "status": "proved",
   "theorems": [
    "C132_jws_errors"
   ],
   "note": "The checks are stated in SpecJoseErr.v over the grammars of SpecReaders.v. Keys must be constructible, as every JsonWebKey object is."
  },
  {
   "property": "C133",
   "status": "proved",
   "theorems": [
    "C133_jwt_errors"
   ],
   "note": "As C132. Payloads whose claims cannot be written as UTF-8 fail last."
  },
  {
   "property": "C134",
   "status": "partial",
   "theorems": [
    "C134_nul_refuted",
    "C134_long_refuted",
    "C134_file_refuted",
    "C134_raw_partial"
   ],
   "note": "REFUTED on Linux for every key with a zero octet, for every key of more than 255 octets without a slash, and for names of files. Proved for secrets that open() says are no file."
  },
  {
   "property": "C135",
   "status": "proved",
   "theorems": [
    "C135_jwk_errors"
   ],
   "note": "The checks are stated in SpecJwkErr.v. Premise: a failing recovery of RSA primes raises ValueError, as cryptography documents."
  },
  {
   "property": "C136",
   "status": "proved",
   "theorems": [
    "C136_keyset_errors",
    "C136_dump_errors"
   ],
   "note": "As C135. The order of the checks is stated in SpecKeySet.v."
  },
  {
   "property": "C137",
   "status": "proved",
   "theorems": [
    "C137_generate",
    "C137_length"
   ],
   "note": "Sizes given as floats are not modelled (a distinct error). Premise: the random sources return what they are asked for (sound)."
  },
  {
   "property": "C138",
   "status": "partial",
   "theorems": [
    "C138_replaced_refuted",
    "C138_generated_refuted",
    "C138_parsed_refuted"
   ],
   "note": "REFUTED: parameters named kty and k turn every generated or parsed key into any other secret, of any length. What holds for other parameters is C137 and C142."
  },
  {
   "property": "C139",
   "status": "proved",
   "theorems": [
    "C139_urlencode_iff",
    "C139_urlencode_error_iff"
   ],
   "note": "The texts of floats, lists and dicts are not modelled; the theorem says so."
  },
  {
   "property": "C140",
   "status": "proved",
   "theorems": [
    "C140_claims_errors",
    "C140_claims_kept"
   ],
   "note": ""
  },
  {
   "property": "C141",
   "status": "proved",
   "theorems": [
    "C141_header_errors",
    "C141_token_errors",
    "C141_serialize_errors",
    "C141_encode_errors",
    "C141_reference"
   ],
   "note": "The back end signs with an RSA key exactly when the modulus has room for the encoded digest (signs_by_size); the reference back end does, unless the size of the modulus is one above a multiple of eight."
  },
  {
   "property": "C142",
   "status": "proved",
   "theorems": [
    "C142_parse",
    "C142_unread"
   ],
   "note": "Premise: the PEM reader of the back end returns keys that the back end takes (pem_sound); the password is part of the reader. That bytes may be taken for a file name is C134."
  },
  {
   "property": "C143",
   "status": "proved",
   "theorems": [
    "C143_login",
    "C143_second_account"
   ],
   "note": "Premises: no access to the data base fails; the CSRF token and the syntax of the address are a flag of the form."
  },
  {
   "property": "C144",
   "status": "proved",
   "theorems": [
    "C144_status",
    "C144_pages"
   ],
   "note": "Premise: no access to the data base fails. The pages that call the library are C98 to C103 and the properties of the endpoints."
  },
  {
   "property": "C145",
   "status": "proved",
   "theorems": [
    "C145_json_iff",
    "C145_octets"
   ],
   "note": "A float is its text in the model (the value json.loads read it from is not computed), so it is written as that text."
  },
  {
   "property": "C146",
   "status": "proved",
   "theorems": [
    "C146_token_written",
    "C146_token_encoded"
   ],
   "note": "The signature itself is what the back end gives (an oracle). ECDSA signatures are in DER and PSS salts are as long as possible, as in the code: see C76 and C77."
  },
  {
   "property": "C147",
   "status": "proved",
   "theorems": [
    "C147_signature",
    "C147_sign_errors"
   ],
   "note": "The signatures are what the back end gives (an oracle); premise on its errors as in C141 (signs_by_size). Data is taken to be bytes."
  },
  {
   "property": "C148",
   "status": "proved",
   "theorems": [
    "C148_verified",
    "C148_verify_errors",
    "C148_roundtrip"
   ],
   "note": "As C147; the round trip assumes that the back end verifies what it signs (backend_correct)."
  },
  {
   "property": "C149",
   "status": "proved",
   "theorems": [
    "C149_authentic",
    "C149_claims"
   ],
   "note": "Reduction: that nobody without the key finds such a signature is the security of the back end, which is no theorem. Premise that the back end verifies what it signs (backend_correct), for the keys that issued. Without an algorithm stated see C25."
  },
  {
   "property": "C150",
   "status": "proved",
   "theorems": [
    "C150_id_token"
   ],
   "note": "As C149; user information that is a JSON object (json_wf). Claims of the user information take precedence over those of the library, as in C67."
  },
  {
   "property": "C151",
   "status": "partial",
   "theorems": [
    "C151_confusion_refuted",
    "C151_audience_partial"
   ],
   "note": "REFUTED: the access token is accepted with the key and algorithm of the ID tokens in every exchange, for an hour. Holds for a client whose options begin with the audience."
  },
  {
   "property": "C152",
   "status": "proved",
   "theorems": [
    "C152_to_bytes",
    "C152_to_string",
    "C152_base64url_encode",
    "C152_base64url_decode",
    "C152_b64_to_int",
    "C152_int_to_b64",
    "C152_json_loads",
    "C152_secret_token"
   ],
   "note": "The text of a float is an oracle (float_text). Objects of other types, other encodings than the default and the limit on the digits of an int are not modelled. The choices of secret_token are below 64."
  },
  {
   "property": "C153",
   "status": "proved",
   "theorems": [
    "C153_text",
    "C153_base64url",
    "C153_number",
    "C153_json"
   ],
   "note": ""
  },
  {
   "property": "C154",
   "status": "partial",
   "theorems": [
    "C154_same_arguments_refuted",
    "C154_same_arguments_partial"
   ],
   "note": "REFUTED: to_string raises TypeError for numbers, which to_bytes takes. Holds for everything else."
  },
  {
   "property": "C155",
   "status": "partial",
   "theorems": [
    "C155_documented_error_refuted",
    "C155_errors_partial"
   ],
   "note": "REFUTED: binascii.Error, ValueError and UnicodeEncodeError are raised for malformed text. TypeError is raised exactly for numbers, lists and dicts."
  },
  {
   "property": "C156",
   "status": "partial",
   "theorems": [
    "C156_consent_refuted"
   ],
   "note": "REFUTED: with a session every conforming GET request gets a code; the page makes no other call. What holds is C98: the code is one for the user of the session."
  },
  {
   "property": "C157",
   "status": "partial",
   "theorems": [
    "C157_prompt_refuted",
    "C157_none_refuted"
   ],
   "note": "REFUTED: the parameters make no difference; without a session the login page is shown for prompt=none too."
  },
  {
   "property": "C158",
   "status": "partial",
   "theorems": [
    "C158_sessions_last_refuted"
   ],
   "note": "REFUTED: only a logout of the user (C99) ends the record of a session. That Starlette refuses a cookie it signed more than two weeks ago, and signs it again with every response, is not modelled."
  },
  {
   "property": "C159",
   "status": "partial",
   "theorems": [
    "C159_guesses_refuted"
   ],
   "note": "REFUTED: wrong logins change nothing."
  },
  {
   "property": "C160",
   "status": "partial",
   "theorems": [
    "C160_default_scope_refuted"
   ],
   "note": "REFUTED: the error is invalid_request, or that of an earlier check."
  },
  {
   "property": "C161",
   "status": "partial",
   "theorems": [
    "C161_default_redirect_refuted"
   ],
   "note": "REFUTED: the error page is shown with invalid_request."
  },
  {
   "property": "C162",
   "status": "proved",
   "theorems": [
    "C162_str_or_bytes",
    "C162_nothing_else",
    "C162_deserialize"
   ],
   "note": "What str makes of a float is an oracle that gives ASCII text with one full stop at most."
  },
  {
   "property": "C163",
   "status": "partial",
   "theorems": [
    "C163_token_errors_refuted",
    "C163_token_errors_partial"
   ],
   "note": "REFUTED: TypeError for lists and dicts, UnicodeEncodeError for a lone surrogate; deserialize raises TypeError for every str. Numbers and None are refused with InvalidJWSSerialization."
  },
  {
   "property": "C164",
   "status": "proved",
   "theorems": [
    "C164_payload_of_any_type",
    "C164_same_token"
   ],
   "note": "Premises as in C23."
  },
  {
   "property": "C165",
   "status": "proved",
   "theorems": [
    "C165_changed_key_verifies",
    "C165_changed_key_signs",
    "C165_changed_key_dump",
    "C165_changed_members"
   ],
   "note": "Assignments, updates and deletions of key.data; the private attribute _algorithm is not changed."
  },
  {
   "property": "C166",
   "status": "partial",
   "theorems": [
    "C166_changed_claims_refuted",
    "C166_changed_members"
   ],
   "note": "REFUTED: the payload is written by __init__; encode gives the first claims whatever is done to token.claims."
  },
  {
   "property": "C167",
   "status": "partial",
   "theorems": [
    "C167_changed_header_refuted",
    "C167_changed_members",
    "C167_changed_header_partial"
   ],
   "note": "REFUTED: the algorithm is chosen when the header is made; a header made with \"none\" and then given another \"alg\" yields an unsigned token naming it, even with a key that demands it. A changed header that would be accepted with the same algorithm, and has no None, is carried."
  },
  {
   "property": "C168",
   "status": "partial",
   "theorems": [
    "C168_changed_set_refuted",
    "C168_same_id_refuted",
    "C168_changed_set_partial"
   ],
   "note": "REFUTED: after appending a key without id get_key raises KeyError for every unknown id, and a repeated id is taken silently. What was in the set is still found."
  },
  {
   "property": "C169",
   "status": "proved",
   "theorems": [
    "C169_token_hides_secrets",
    "C169_revocation_hides_secrets",
    "C169_authorization_hides_secrets",
    "C169_consent_hides_secrets"
   ],
   "note": "Relational. Whether a client has a secret at all is kept too: the method none asks for it. Timing is not modelled."
  },
  {
   "property": "C170",
   "status": "proved",
   "theorems": [
    "C170_history_hides_secrets"
   ],
   "note": "Relational, over interleaved histories; attributes of users are kept, as ID Tokens show them."
  },
  {
   "property": "C171",
   "status": "proved",
   "theorems": [
    "C171_one_reading",
    "C171_one_value",
    "C171_error_text"
   ],
   "note": "With Jinja2 escaping as in Page.v; the reading of HTML in SpecPage.v is that of well-formed documents."
  },
  {
   "property": "C172",
   "status": "proved",
   "theorems": [
    "C172_login_form",
    "C172_form_and_back"
   ],
   "note": "With WTForms rendering as in Page.v; C172_form_and_back extends C101 to the submitted forms."
  },
  {
   "property": "C173",
   "status": "proved",
   "theorems": [
    "C173_error_told",
    "C173_missing_redirect_told"
   ],
   "note": "For an error URL without a query or fragment, on the same origin, as in example/provider.py."
  },
  {
   "property": "C174",
   "status": "proved",
   "theorems": [
    "C174_sessions",
    "C174_refresh_tokens",
    "C174_password"
   ],
   "note": "The cookie is taken as signed: only pairs made by the login occur in it, as for C98."
  },
  {
   "property": "C175",
   "status": "proved",
   "theorems": [
    "C175_code_saved",
    "C175_password",
    "C175_code_deleted",
    "C175_refresh_created",
    "C175_session_started",
    "C175_rest_unchanged"
   ],
   "note": "Any authenticated client may use up a code (C91). Sessions and refresh tokens disappear as C174 tells."
  },
  {
   "property": "C176",
   "status": "proved",
   "theorems": [
    "C176_consistent"
   ],
   "note": "An adapter method and a view access are taken as one step each, as for C174 and C175."
  },
  {
   "property": "C177",
   "status": "partial",
   "theorems": [
    "C177_codes_refuted",
    "C177_sessions_refuted",
    "C177_sessions_partial",
    "C177_refresh_tokens_partial"
   ],
   "note": "REFUTED: codes that are not exchanged stay, any number of them for one client and user; overlapping logins store several sessions of a user. Proved: one session for a user if requests follow one another, and the bound for refresh tokens."
  },
  {
   "property": "C178",
   "status": "proved",
   "theorems": [
    "C178_kept",
    "C178_exchange"
   ],
   "note": "The table of codes and the tokens over any interleaving; that another token request naming the code removes it is C175."
  },
  {
   "property": "C179",
   "status": "proved",
   "theorems": [
    "C179_kept",
    "C179_refresh"
   ],
   "note": "The time limit is a premise on the row that is read; rows with an aware expiry time make the grant raise, which the premise excludes."
  },
  {
   "property": "C180",
   "status": "proved",
   "theorems": [
    "C180_kept",
    "C180_authorize"
   ],
   "note": "The user and the clients are those of the data base at the start, which no request changes. A logout by any session of the user counts, as in C174."
  },
  {
   "property": "C181",
   "status": "proved",
   "theorems": [
    "C181_flow"
   ],
   "note": "Success of each call of the data base, and that the hooks are served and the code is used in time, are premises on the calls of the two requests."
  },
  {
   "property": "C182",
   "status": "proved",
   "theorems": [
    "C182_handed",
    "C182_stored"
   ],
   "note": "Tokens that the data base of the example already has for a client and user are handed out again (C104); they are then stored for that client."
  },
  {
   "property": "C183",
   "status": "proved",
   "theorems": [
    "C183_refresh",
    "C183_access"
   ],
   "note": "The user is that of the row found for the code or refresh token presented. What an access token says of its owner is C96."
  }
 ]
}