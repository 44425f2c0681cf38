(** The properties of src/psion/jose/jws.py and jose/jwa/jws.py: C23-C33 and C76-C78. *)
From Coq Require Import String Ascii List NArith ZArith Bool.
From Verif Require Import Base SpecCodec Base64 Json Webtools Crypto RefCrypto Jwk SpecKey Jws SpecJws JwsFacts JwsRef SpecReaders ReadJwsFacts.
Import ListNotations.
Open Scope N_scope.

(** C23.  [d] is the dict the header was built from; the token is checked with the key or its public part,
    with the algorithm pinned or not. *)
Theorem C23_jws_roundtrip : forall C rand d h payload k k' token algv,
  json_wf (PDict d) = true -> bytes_ok payload -> constructible C k -> constructible C k' -> verifying_key k k' ->
  backend_correct C (jmat k) ->
  JsonWebSignatureHeader (PDict d) = Ok h ->
  serialize C rand {| jheader := h; jpayload := payload |} (Some k) = Ok token ->
  (~ false_value algv -> algv = dget (lit "alg") d) ->
  deserialize C token (Some k') algv true = Ok {| jheader := h; jpayload := payload |}.
Proof. exact p_jws_roundtrip. Qed.
Print Assumptions C23_jws_roundtrip.
Example C23_backend : (forall s, backend_correct ref (KOct s)) /\ backend_correct ref (jmat ec_private).
Proof. split; [exact ref_oct|exact ref_ec]. Qed.
Example C23_example_hs :
  JsonWebSignatureHeader (PDict [(lit "alg", PStr (lit "HS256"))]) = Ok hs_header /\
  JsonWebKey ref (PDict (oct_dict [])) = Ok (oct_key []) /\
  serialize ref [] hs_jws (Some (oct_key [])) = Ok hs_token /\
  deserialize ref hs_token (Some (oct_key [])) PNone true = Ok hs_jws.
Proof. vm. Qed.
(** Signed with the private key, checked with the public one. *)
Example C23_example_es :
  JsonWebKey ref (PDict (jdata ec_private)) = Ok ec_private /\
  JsonWebKey ref (PDict (jdata ec_key)) = Ok ec_key /\
  serialize ref [] {| jheader := {| hdict := [(lit "alg", PStr (lit "ES256"))]; halg := ES SHA256 |}; jpayload := lit "msg" |} (Some ec_private)
    = Ok (es_message ++ 46 :: rfc4648_url (der_sig es_rs)).
Proof. vm. Qed.

(** C24.  Exactly which tokens are accepted, and with which result. *)
Theorem C24_accepted_tokens : forall C token k algv j, constructible C k ->
  (deserialize C token (Some k) algv true = Ok j <->
   exists hs ps ss hb d name,
     segments token hs ps ss /\
     url_octets hs hb /\ json_object hb d /\
     header_valid d /\ lookup (lit "alg") d = Some (PStr name) /\
     hdict (jheader j) = without_none d /\ alg_name (halg (jheader j)) = name /\
     url_octets ps (jpayload j) /\
     (~ false_value algv -> algv = PStr name) /\
     key_permits k d /\
     (name = lit "none" \/
      exists sig, url_octets ss sig /\ accepts C (jmat k) name sig (hs ++ 46 :: ps))).
Proof. exact r_jws_iff. Qed.
Print Assumptions C24_accepted_tokens.
Theorem C24_pinned_algorithm : forall C token k name j, constructible C k -> name <> [] -> name <> lit "none" ->
  deserialize C token (Some k) (PStr name) true = Ok j ->
  exists hs ps ss hb d sig, segments token hs ps ss /\
    url_octets ss sig /\ accepts C (jmat k) name sig (hs ++ 46 :: ps) /\
    url_octets hs hb /\ json_object hb d /\
    lookup (lit "alg") d = Some (PStr name) /\ hdict (jheader j) = without_none d /\
    url_octets ps (jpayload j).
Proof. exact r_pinned. Qed.
Print Assumptions C24_pinned_algorithm.
Example C24_example :
  deserialize ref hs_token (Some (oct_key [])) (PStr (lit "HS256")) true = Ok hs_jws /\
  rmap jpayload (deserialize ref (rs_message ++ 46 :: rs_sig) (Some rsa_key) (PStr (lit "RS256")) true) = Ok (lit "msg") /\
  (* another payload under the same signature *)
  deserialize ref (lit "eyJhbGciOiAiUlMyNTYifQ.bXNm" ++ 46 :: rs_sig) (Some rsa_key) (PStr (lit "RS256")) true = Err InvalidSignature.
Proof. vm. Qed.

(** C25 is refuted: without a pinned algorithm, and with a key that states none, a token whose header says
    "none" is accepted with any payload and any third segment. *)
Theorem C25_unsigned_accepted_refuted : forall C k payload ss, constructible C k -> bytes_ok payload -> ~ In 46 ss ->
  (forall a, In a [lit "alg"; lit "use"; lit "key_ops"] -> lookup a (jdata k) = None) ->
  exists j, deserialize C (none_token payload ss) (Some k) PNone true = Ok j /\ jpayload j = payload /\ hdict (jheader j) = none_header.
Proof. exact p_none_accepted. Qed.
Print Assumptions C25_unsigned_accepted_refuted.
Example C25_example :
  deserialize ref (lit "eyJhbGciOiAibm9uZSJ9.eyJhZG1pbiI6IHRydWV9.") (Some rsa_key) PNone true =
    Ok {| jheader := {| hdict := none_header; halg := Anone |}; jpayload := lit "{""admin"": true}" |}.
Proof. vm_compute. reflexivity. Qed.
(** What holds: an algorithm other than "none", pinned by the caller or stated by the key, excludes it. *)
Theorem C25_signed_partial : forall C token k algv j, constructible C k ->
  deserialize C token (Some k) algv true = Ok j ->
  (~ false_value algv /\ algv <> PStr (lit "none")) \/
  (~ false_value (dget (lit "alg") (jdata k)) /\ dget (lit "alg") (jdata k) <> PStr (lit "none")) ->
  exists hs ps ss sig name, segments token hs ps ss /\ url_octets ss sig /\ url_octets ps (jpayload j) /\
    lookup (lit "alg") (hdict (jheader j)) = Some (PStr name) /\ accepts C (jmat k) name sig (hs ++ 46 :: ps).
Proof. exact r_signed_partial. Qed.
Print Assumptions C25_signed_partial.
Example C25_partial_example : let k := oct_key [(lit "alg", PStr (lit "HS256"))] in
  JsonWebKey ref (PDict (jdata k)) = Ok k /\
  deserialize ref hs_token (Some k) PNone true = Ok hs_jws /\
  deserialize ref (none_token (lit "x") []) (Some k) PNone true = Err InvalidKey.
Proof. cbv zeta. vm. Qed.

(** C26 *)
Theorem C26_key_kinds : forall C token k algv j name, constructible C k ->
  deserialize C token (Some k) algv true = Ok j -> lookup (lit "alg") (hdict (jheader j)) = Some (PStr name) ->
  (In name (map fst hs_names) -> exists s, jmat k = KOct s) /\
  (In name (map fst rs_names ++ map fst ps_names) -> exists n e o, jmat k = KRSA n e o) /\
  (forall c h, In (name, (c, h)) es_names -> exists x y o, jmat k = KEC c x y o).
Proof. exact p_no_confusion. Qed.
Print Assumptions C26_key_kinds.
(** With an asymmetric key nothing depends on what the MAC computes. *)
Theorem C26_mac_unused : forall C f k, (forall s, jmat k <> KOct s) ->
  (forall token algv v, deserialize (with_hmac C f) token (Some k) algv v = deserialize C token (Some k) algv v) /\
  (forall rand j, serialize (with_hmac C f) rand j (Some k) = serialize C rand j (Some k)).
Proof. exact p_hmac_unused. Qed.
Print Assumptions C26_mac_unused.
Example C26_example :
  deserialize ref hs_token (Some rsa_key) PNone true = Err InvalidKey /\
  deserialize ref hs_token (Some ec_key) PNone true = Err InvalidKey /\
  deserialize ref (rs_message ++ 46 :: rs_sig) (Some (oct_key [])) PNone true = Err InvalidKey /\
  deserialize ref (base64url_encode (lit "{""alg"": ""ES384""}") ++ lit "..") (Some ec_key) PNone true = Err InvalidKey.
Proof. vm. Qed.

(** C27 *)
Theorem C27_key_restrictions : forall C k, constructible C k ->
  (forall token algv j, deserialize C token (Some k) algv true = Ok j -> key_permits k (hdict (jheader j))) /\
  (forall rand d h payload token, NoDup (keys d) -> JsonWebSignatureHeader (PDict d) = Ok h ->
     serialize C rand {| jheader := h; jpayload := payload |} (Some k) = Ok token -> key_permits k d).
Proof. exact p_permits. Qed.
Print Assumptions C27_key_restrictions.
Example C27_example :
  serialize ref [] hs_jws (Some (oct_key [(lit "alg", PStr (lit "HS256")); (lit "use", PStr (lit "sig"))])) = Ok hs_token /\
  serialize ref [] hs_jws (Some (oct_key [(lit "alg", PStr (lit "HS384"))])) = Err InvalidKey /\
  serialize ref [] hs_jws (Some (oct_key [(lit "use", PStr (lit "enc"))])) = Err InvalidKey /\
  serialize ref [] hs_jws (Some (oct_key [(lit "key_ops", PList [PStr (lit "sign"); PStr (lit "encrypt")])])) = Err InvalidKey /\
  deserialize ref hs_token (Some (oct_key [(lit "alg", PStr (lit "HS384"))])) PNone true = Err InvalidKey /\
  deserialize ref (base64url_encode (lit "{""alg"": ""HS256"", ""kid"": ""b""}") ++ lit "..") (Some (oct_key [(lit "kid", PStr (lit "a"))])) PNone true = Err InvalidKey.
Proof. vm. Qed.

(** C28 is refuted. *)
Theorem C28_key_ops_refuted :
  let v := [(lit "key_ops", PList [PStr (lit "verify")])] in let s := [(lit "key_ops", PList [PStr (lit "sign")])] in
  (forall C, JsonWebKey C (PDict (oct_dict v)) = Ok (oct_key v)) /\ (forall C, JsonWebKey C (PDict (oct_dict s)) = Ok (oct_key s)) /\
  serialize ref [] hs_jws (Some (oct_key v)) = Ok hs_token /\
  deserialize ref hs_token (Some (oct_key s)) (PStr (lit "HS256")) true = Ok hs_jws.
Proof. exact key_ops_not_per_operation. Qed.
Print Assumptions C28_key_ops_refuted.

(** C29 *)
Theorem C29_header_validation : forall v h, JsonWebSignatureHeader v = Ok h <->
  exists d name, v = PDict d /\ header_valid d /\ hdict h = without_none d /\
    lookup (lit "alg") d = Some (PStr name) /\ alg_name (halg h) = name.
Proof. exact p_header_iff. Qed.
Print Assumptions C29_header_validation.
Example C29_example :
  JsonWebSignatureHeader (PDict [(lit "alg", PStr (lit "RS512")); (lit "typ", PStr (lit "JWT")); (lit "jku", PNone)]) =
    Ok {| hdict := [(lit "alg", PStr (lit "RS512")); (lit "typ", PStr (lit "JWT"))]; halg := RS SHA512 |} /\
  JsonWebSignatureHeader (PDict []) = Err InvalidJWSHeader /\
  JsonWebSignatureHeader (PDict [(lit "alg", PStr (lit "HS1"))]) = Err UnsupportedAlgorithm /\
  JsonWebSignatureHeader (PDict [(lit "alg", PStr (lit "HS256")); (lit "kid", PNone)]) = Err InvalidJWSHeader.
Proof. vm. Qed.

(** C30 is refuted: any extension name is accepted when its member has a truthy value.  The one extension
    registered, b64 (RFC 7797), is refused with the value false. *)
Theorem C30_unknown_critical_refuted : forall name, name <> [] -> ~ In name [lit "alg"; lit "crit"; lit "kid"; lit "typ"; lit "cty"] ->
  exists h, JsonWebSignatureHeader (PDict [(lit "alg", PStr (lit "HS256")); (lit "crit", PList [PStr name]); (name, PBool true)]) = Ok h.
Proof. exact p_crit_unknown. Qed.
Print Assumptions C30_unknown_critical_refuted.
Theorem C30_b64_false_partial : forall d l,
  lookup (lit "crit") d = Some (PList l) -> In (PStr (lit "b64")) l -> lookup (lit "b64") d = Some (PBool false) ->
  forall h, JsonWebSignatureHeader (PDict d) <> Ok h.
Proof. exact p_b64_false. Qed.
Print Assumptions C30_b64_false_partial.
Example C30_example :
  rmap hdict (JsonWebSignatureHeader (PDict [(lit "alg", PStr (lit "HS256")); (lit "crit", PList [PStr (lit "exp")]); (lit "exp", PInt 1)])) =
    Ok [(lit "alg", PStr (lit "HS256")); (lit "crit", PList [PStr (lit "exp")]); (lit "exp", PInt 1)] /\
  JsonWebSignatureHeader (PDict [(lit "alg", PStr (lit "HS256")); (lit "crit", PList [PStr (lit "b64")]); (lit "b64", PBool false)]) = Err InvalidJWSHeader.
Proof. vm. Qed.

(** C31.  The same exception has one other cause, a header whose algorithm is not the pinned one. *)
Theorem C31_three_segments : forall C token key algv v, deserialize C token key algv v = Err InvalidJWSSerialization <->
  dots token <> 2%nat \/
  exists hs ps ss hb d name, segments token hs ps ss /\ url_octets hs hb /\ json_object hb d /\ header_valid d /\
    lookup (lit "alg") d = Some (PStr name) /\ ~ false_value algv /\ algv <> PStr name.
Proof. exact r_segments. Qed.
Print Assumptions C31_three_segments.
Example C31_example :
  deserialize ref (lit "a.b") (Some (oct_key [])) PNone true = Err InvalidJWSSerialization /\
  deserialize ref (hs_token ++ lit ".") (Some (oct_key [])) PNone true = Err InvalidJWSSerialization /\
  deserialize ref hs_token (Some (oct_key [])) (PStr (lit "HS384")) true = Err InvalidJWSSerialization /\
  deserialize ref (lit "..") (Some (oct_key [])) (PStr (lit "HS384")) true = Err JSONDecodeError.
Proof. vm. Qed.

(** C32 is refuted: four foreign exceptions escape. *)
Theorem C32_foreign_exceptions_refuted : forall C,
  constructible C (oct_key []) /\ constructible C small_rsa /\
  deserialize C (lit "a..") (Some (oct_key [])) (PStr (lit "HS256")) true = Err BinasciiError /\
  deserialize C (lit "YQ..") (Some (oct_key [])) (PStr (lit "HS256")) true = Err JSONDecodeError /\
  deserialize C (rfc4648_url (lit "{""alg"": []}") ++ lit "..") (Some (oct_key [])) (PStr (lit "HS256")) true = Err TypeError /\
  deserialize C (rfc4648_url (lit "{""alg"": ""PS256""}") ++ lit "..") (Some small_rsa) (PStr (lit "PS256")) true = Err ValueError.
Proof. exact jws_foreign. Qed.
Print Assumptions C32_foreign_exceptions_refuted.
Theorem C32_exceptions_partial : forall C token key algv v e,
  deserialize C token key algv v = Err e -> In e (jws_errors ++ jws_escaping).
Proof. exact p_jws_errors. Qed.
Print Assumptions C32_exceptions_partial.

(** C33 is refuted: from every accepted token another text is made that is accepted with the same result. *)
Theorem C33_malleable_refuted : forall C token key algv v j, deserialize C token key algv v = Ok j ->
  deserialize C (token ++ junk) key algv v = Ok j.
Proof. exact p_malleable. Qed.
Print Assumptions C33_malleable_refuted.
(** What holds for a MAC: the bytes of the signature are unique. *)
Theorem C33_mac_bytes_partial : forall C s k hs ps ss1 ss2 algv1 algv2 j1 j2, constructible C k -> jmat k = KOct s ->
  segments (hs ++ 46 :: ps ++ 46 :: ss1) hs ps ss1 -> segments (hs ++ 46 :: ps ++ 46 :: ss2) hs ps ss2 ->
  deserialize C (hs ++ 46 :: ps ++ 46 :: ss1) (Some k) algv1 true = Ok j1 ->
  deserialize C (hs ++ 46 :: ps ++ 46 :: ss2) (Some k) algv2 true = Ok j2 ->
  j1 = j2 /\ (lookup (lit "alg") (hdict (jheader j1)) <> Some (PStr (lit "none")) -> exists sig, url_octets ss1 sig /\ url_octets ss2 sig).
Proof. exact r_hmac_unique. Qed.
Print Assumptions C33_mac_bytes_partial.
Example C33_example :
  deserialize ref (hs_token ++ lit "!!!!") (Some (oct_key [])) PNone true = Ok hs_jws /\
  (* the two spare bits of the last character *)
  deserialize ref (lit "eyJhbGciOiAiSFMyNTYifQ.U3VwZXIgaW1wb3J0YW50IG1lc3NhZ2Uu.hcKC9ON7r55CL1bekT5KlYN37Dwx_3yGNlhexf89-1Z") (Some (oct_key [])) PNone true = Ok hs_jws.
Proof. vm. Qed.

(** C76 is refuted: a PS256 signature with the salt length of RFC 7518 section 3.5 is refused. *)
Theorem C76_ps_salt_refuted : exists sig,
  constructible ref rsa_key /\ url_octets ps_sig_digest sig /\
  c_rsa_verify ref rsa_n 65537 (PSS SaltDigest) SHA256 sig ps_message = true /\
  deserialize ref (ps_message ++ 46 :: ps_sig_digest) (Some rsa_key) (PStr (lit "PS256")) true = Err InvalidSignature /\
  rmap jpayload (deserialize ref (ps_message ++ 46 :: ps_sig_max) (Some rsa_key) (PStr (lit "PS256")) true) = Ok (lit "msg").
Proof. exact r_ps_salt. Qed.
Print Assumptions C76_ps_salt_refuted.

(** C77 is refuted: an ES256 signature in the format of RFC 7518 section 3.4 is refused; only DER is accepted. *)
Theorem C77_es_format_refuted :
  constructible ref ec_key /\
  c_ec_verify ref P256 (fst (base_point P256)) (snd (base_point P256)) SHA256 es_rs es_message = true /\
  deserialize ref (es_message ++ 46 :: rfc4648_url es_raw) (Some ec_key) (PStr (lit "ES256")) true = Err InvalidSignature /\
  rmap jpayload (deserialize ref (es_message ++ 46 :: rfc4648_url (der_sig es_rs)) (Some ec_key) (PStr (lit "ES256")) true) = Ok (lit "msg").
Proof. exact es_format. Qed.
Print Assumptions C77_es_format_refuted.
Theorem C77_der_only : forall C token k algv j name, constructible C k -> deserialize C token (Some k) algv true = Ok j ->
  lookup (lit "alg") (hdict (jheader j)) = Some (PStr name) -> In name (map fst es_names) ->
  exists hs ps ss r s, segments token hs ps ss /\ url_octets ss (der_sig (r, s)) /\ hd_error (der_sig (r, s)) = Some 48.
Proof. exact r_der_only. Qed.
Print Assumptions C77_der_only.

(** C78 is refuted: a secret of any length, even empty, signs. *)
Theorem C78_key_size_refuted : forall C s, bytes_ok s -> exists k,
  JsonWebKey C (PDict [(lit "kty", PStr (lit "oct")); (lit "k", PStr (rfc4648_url s))]) = Ok k /\ jmat k = KOct s /\
  forall rand payload, exists token, serialize C rand {| jheader := hs_header; jpayload := payload |} (Some k) = Ok token.
Proof. exact short_secrets. Qed.
Print Assumptions C78_key_size_refuted.
