(** Which error jws.py and jwt.py raise for which token: their checks in the order of their precedence. *)
From Coq Require Import String Ascii List NArith ZArith Bool.
From Verif Require Import Base SpecCodec Webtools Crypto Jwk SpecKey Jws SpecJws SpecJwt SpecReaders.
Import ListNotations.
Open Scope N_scope.

(** The header of the token as a JSON object *)
Definition has_header (token : bytes) (P : pdict -> Prop) : Prop :=
  exists hs ps ss hb d, segments token hs ps ss /\ url_octets hs hb /\ json_object hb d /\ P d.
(** The segments of the token and the algorithm its header names *)
Definition has_parts (token : bytes) (P : str -> bytes -> bytes -> bytes -> Prop) : Prop :=
  exists hs ps ss hb d name, segments token hs ps ss /\ url_octets hs hb /\ json_object hb d /\
    lookup (chars "alg") d = Some (PStr name) /\ P name hs ps ss.
(** RFC 7518 section 3.1: the kind of key and the curve *)
Definition key_suits (m : kmat) (name : str) : Prop :=
  match m with
  | KOct _ => In name (map fst hs_names)
  | KRSA _ _ _ => In name (map fst rs_names) \/ In name (map fst ps_names)
  | KEC c _ _ _ => exists h, In (name, (c, h)) es_names
  end.
(** RFC 8017 section 9.1.1: the modulus has room for the digest *)
Definition key_has_room (m : kmat) (name : str) : Prop :=
  forall n e o h, m = KRSA n e o -> In (name, h) ps_names -> (digest_size h + 2 <= byte_len n)%nat.
(** The alg, kid and use of the key *)
Definition key_names (k : jwk) (d : pdict) : Prop :=
  (forall v, lookup (chars "alg") (jdata k) = Some v -> false_value v \/ lookup (chars "alg") d = Some v) /\
  (forall v, lookup (chars "kid") d = Some v -> false_value v \/ lookup (chars "kid") (jdata k) = Some v) /\
  (forall v, lookup (chars "use") (jdata k) = Some v -> false_value v \/ v = PStr (chars "sig")).
(** The operations of the key *)
Definition ops_listed (k : jwk) : Prop :=
  forall v, lookup (chars "key_ops") (jdata k) = Some v -> false_value v \/ (exists s, v = PStr s) \/ (exists l, v = PList l) \/ (exists d, v = PDict d).
Definition ops_allow (k : jwk) : Prop :=
  forall v, lookup (chars "key_ops") (jdata k) = Some v -> false_value v \/
    (exists l, v = PList l /\ forall x, In x l -> x = PStr (chars "sign") \/ x = PStr (chars "verify")) \/
    (exists d, v = PDict d /\ forall x, In x (map fst d) -> x = chars "sign" \/ x = chars "verify").

(** jws.py 268-324: [key] is [None] when what is given is not a key. *)
Definition signature_checks (C : crypto) (token : bytes) (key : option jwk) : list (Prop * option exn) :=
  match key with
  | None => [(False, Some InvalidKey)]
  | Some k =>
      let signed P := has_parts token (fun name hs ps ss => name = chars "none" \/ P name hs ps ss) in
      [(has_header token (key_names k), Some InvalidKey);
       (ops_listed k, Some TypeError);
       (ops_allow k, Some InvalidKey);
       (signed (fun name hs ps ss => key_suits (jmat k) name), Some InvalidKey);
       (signed (fun name hs ps ss => exists sig, url_octets ss sig), Some InvalidSignature);
       (signed (fun name hs ps ss => key_has_room (jmat k) name), Some ValueError);
       (signed (fun name hs ps ss => exists sig, url_octets ss sig /\ accepts C (jmat k) name sig (hs ++ 46 :: ps)), Some InvalidSignature)]
  end.
(** jws.py 73-195: a header *)
Definition header_lines (header : (pdict -> Prop) -> Prop) : list (Prop * option exn) :=
  [(header (fun d => exists v, lookup (chars "alg") d = Some v), Some InvalidJWSHeader);
   (header (fun d => forall v, lookup (chars "alg") d = Some v -> (forall l, v <> PList l) /\ (forall m, v <> PDict m)), Some TypeError);
   (header (fun d => exists name, lookup (chars "alg") d = Some (PStr name) /\ In name registered), Some UnsupportedAlgorithm);
   (header header_valid, Some InvalidJWSHeader)].
Definition jws_checks (C : crypto) (token : bytes) (key : option jwk) (algorithm : pyval) (validate : bool) : list (Prop * option exn) :=
  [(dots token = 2%nat, Some InvalidJWSSerialization);
   (exists hs ps ss hb, segments token hs ps ss /\ url_octets hs hb, Some BinasciiError);
   (exists hs ps ss hb v, segments token hs ps ss /\ url_octets hs hb /\ json_octets hb v, Some JSONDecodeError)] ++
  header_lines (has_header token) ++
  [(false_value algorithm \/ has_header token (fun d => lookup (chars "alg") d = Some algorithm), Some InvalidJWSSerialization)] ++
  (if validate then signature_checks C token key else []) ++
  [(exists hs ps ss b, segments token hs ps ss /\ url_octets ps b, Some BinasciiError)].

(** ** jwt.py 41-88: the registered claims at the time [now] *)
Definition time_claim (c : pdict) (name : string) : Prop :=
  forall v, lookup (chars name) c = Some v -> false_value v \/ exists z, v = PInt z.
Definition time_within (c : pdict) (name : string) (P : Z -> Prop) : Prop :=
  forall z, lookup (chars name) c = Some (PInt z) -> z = 0%Z \/ P z.
Definition text_claim (c : pdict) (name : string) : Prop :=
  forall v, lookup (chars name) c = Some v -> v = PNone \/ exists s, v = PStr s.
Definition audience_claim (c : pdict) : Prop :=
  forall v, lookup (chars "aud") c = Some v -> false_value v \/ (exists s, v = PStr s) \/
    (exists l, v = PList l /\ forall x, In x l -> exists s, x = PStr s).
Definition claim_checks (now : Z) (claims : (pdict -> Prop) -> Prop) : list (Prop * option exn) :=
  [(claims audience_claim, Some InvalidJWTClaim);
   (claims (fun c => time_claim c "exp"), Some InvalidJWTClaim);
   (claims (fun c => time_within c "exp" (fun z => now < z)%Z), Some ExpiredToken);
   (claims (fun c => time_claim c "iat"), Some InvalidJWTClaim);
   (claims (fun c => time_within c "iat" (fun z => z <= now)%Z), Some InvalidJWTClaim);
   (claims (fun c => text_claim c "iss"), Some InvalidJWTClaim);
   (claims (fun c => text_claim c "jti"), Some InvalidJWTClaim);
   (claims (fun c => time_claim c "nbf"), Some InvalidJWTClaim);
   (claims (fun c => time_within c "nbf" (fun z => z <= now)%Z), Some NotYetValidToken);
   (claims (fun c => text_claim c "sub"), Some InvalidJWTClaim)].

(** The options of the caller, up to the one at which the loop stops (C37) *)
Definition options_met (options c : pdict) : Prop :=
  forall pre name o post, options = pre ++ (name, PDict o) :: post -> (forall kv, In kv pre -> ~ stops c kv) -> option_met c name o.
(** Texts that UTF-8 can write: no surrogates *)
Definition in_utf8 (s : str) : Prop := exists b, rfc3629_str s = Some b.
Fixpoint writable (v : pyval) : Prop :=
  match v with
  | PStr s | PFloat s => in_utf8 s
  | PList l => fold_right (fun x P => writable x /\ P) True l
  | PDict d => fold_right (fun kv P => (in_utf8 (fst kv) /\ writable (snd kv)) /\ P) True d
  | _ => True
  end.

(** jwt.py 187-234; [now1], [now2]: the two readings of the clock *)
Definition has_claims (token : bytes) (P : pdict -> Prop) : Prop :=
  exists hs ps ss b c, segments token hs ps ss /\ url_octets ps b /\ json_object b c /\ P c.
Definition jwt_checks (C : crypto) (now1 now2 : Z) (token : bytes) (key : option jwk) (algorithm : pyval) (validate : bool) (options : pyval) : list (Prop * option exn) :=
  jws_checks C token key algorithm validate ++
  [(exists hs ps ss b v, segments token hs ps ss /\ url_octets ps b /\ json_octets b v, Some JSONDecodeError);
   (has_claims token (fun c => c <> []), Some InvalidJWTClaim)] ++
  claim_checks now1 (has_claims token) ++
  [(validate = true -> forall o, options = PDict o -> has_claims token (options_met o), Some InvalidJWTClaim);
   (has_claims token (fun c => exists k v, In (k, v) c /\ v <> PNone), Some InvalidJWTClaim)] ++
  claim_checks now2 (has_claims token) ++
  [(has_claims token (fun c => writable (PDict (without_none c))), Some UnicodeEncodeError)].

(** jwt.py 28-39 and oidc/claims.py 41-62: the claims of a JWT and of an ID token, given as [v] with the options [options] of
    the caller.  The OIDC class looks for "max_age" where it means "auth_time" (C41). *)
Definition int_claim (c : pdict) (name : string) : Prop :=
  forall v, lookup (chars name) c = Some v -> v = PNone \/ exists z, v = PInt z.
Definition nonce_met (options : pyval) (c : pdict) : Prop :=
  forall o n, options = PDict o -> lookup (chars "nonce") o = Some n -> ~ false_value n ->
    exists w, lookup (chars "nonce") c = Some w /\ same n w.
Definition claims_checks (id_token : bool) (now : Z) (v options : pyval) : list (Prop * option exn) :=
  let claims P := exists c, v = PDict c /\ P c in
  [(claims (fun c => c <> []), Some InvalidJWTClaim)] ++ claim_checks now claims ++
  (if id_token then
     [(claims (fun c => int_claim c "max_age"), Some InvalidJWTClaim);
      (false_value options \/ exists o, options = PDict o, Some AttributeError);
      (claims (nonce_met options), Some InvalidJWTClaim)]
   else []) ++
  [(forall o, options = PDict o -> claims (options_met o), Some InvalidJWTClaim)].

(** jwt.py 165-168: a token that is made of the claims [v] and the header [h] *)
Definition token_checks (now : Z) (v h : pyval) : list (Prop * option exn) :=
  header_lines (fun P => exists d, h = PDict d /\ P d) ++ claims_checks false now v PNone ++
  [(exists c, v = PDict c /\ writable (PDict (without_none c)), Some UnicodeEncodeError)].
(** jws.py 231-266: a token with the header [d] is signed. *)
Definition private_part (m : kmat) : Prop :=
  match m with KRSA _ _ None | KEC _ _ _ None => False | _ => True end.
(** RFC 8017 sections 8.1.1, 8.2.1: the modulus has room for the encoded digest; a DigestInfo of SHA-2 has 19 octets beside
    the digest, and PKCS #1 v1.5 puts at least 11 around it. *)
Definition signing_room (m : kmat) (name : str) : Prop :=
  key_has_room m name /\
  forall n e o h, m = KRSA n e o -> In (name, h) rs_names -> (digest_size h + 30 <= byte_len n)%nat.
(** The back end signs when there is room, and says so otherwise. *)
Definition signs_by_size (C : crypto) (m : kmat) : Prop :=
  forall n e k rand h data, m = KRSA n e (Some k) ->
    ((digest_size h + 30 <= byte_len n)%nat -> exists sig, c_rsa_sign C rand n k PKCS1v15 h data = Ok sig) /\
    ((byte_len n < digest_size h + 30)%nat -> c_rsa_sign C rand n k PKCS1v15 h data = Err ValueError) /\
    ((digest_size h + 2 <= byte_len n)%nat -> exists sig, c_rsa_sign C rand n k (PSS SaltMax) h data = Ok sig).
Definition serialize_checks (d : pdict) (key : option jwk) : list (Prop * option exn) :=
  match key with
  | None => [(False, Some InvalidKey)]
  | Some k =>
      let signed P := exists name, lookup (chars "alg") d = Some (PStr name) /\ (name = chars "none" \/ P name) in
      [(key_names k d, Some InvalidKey);
       (ops_listed k, Some TypeError);
       (ops_allow k, Some InvalidKey);
       (writable (PDict (without_none d)), Some UnicodeEncodeError);
       (signed (fun name => key_suits (jmat k) name /\ private_part (jmat k)), Some InvalidKey);
       (signed (signing_room (jmat k)), Some ValueError)]
  end.
