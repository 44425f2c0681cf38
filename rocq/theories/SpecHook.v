(** Specifications for C94-C97: which keys sign, exchanges with the OpenID Connect hook, the example's tokens and claims. *)
From Coq Require Import String Ascii List NArith ZArith Bool.
From Verif Require Import Base Utf8 SpecCodec Json Webtools Crypto Jwk SpecKey Jws SpecJws SpecJwt Jwt Prog Http OAuth SpecOAuth SpecHistory SpecFlow.
Import ListNotations.
Open Scope N_scope.

(** No text in the value, at any depth, has a lone surrogate. *)
Fixpoint scalar_val (v : pyval) : Prop :=
  match v with
  | PStr s | PFloat s => scalar_str s
  | PList l => fold_right (fun x P => scalar_val x /\ P) True l
  | PDict d => fold_right (fun kv P => (scalar_str (fst kv) /\ scalar_val (snd kv)) /\ P) True d
  | PNone | PBool _ | PInt _ => True
  end.

(** RFC 7518 sections 3.2-3.5: the key [m] can make signatures with the algorithm called [alg]. *)
Inductive suits (alg : str) : kmat -> Prop :=
| suits_hs s h : In (alg, h) hs_names -> suits alg (KOct s)
| suits_rs n e p h : In (alg, h) rs_names -> suits alg (KRSA n e (Some p))
| suits_ps n e p h : In (alg, h) ps_names -> (digest_size h + 2 <= byte_len n)%nat -> suits alg (KRSA n e (Some p))
| suits_es c x y d h : In (alg, (c, h)) es_names -> suits alg (KEC c x y (Some d)).
(** The back end signs with this key. *)
Definition signs_always (C : crypto) (m : kmat) : Prop :=
  forall n e k, m = KRSA n e (Some k) -> forall rand p h data, exists sig, c_rsa_sign C rand n k p h data = Ok sig.

(** A key for ID tokens with the algorithm [alg] *)
Definition signing_key (C : crypto) (k : jwk) (alg : str) : Prop :=
  constructible C k /\ backend_correct C (jmat k) /\ signs_always C (jmat k) /\ suits alg (jmat k) /\
  exists i, lookup (lit "kid") (jdata k) = Some (PStr i) /\ i <> [] /\ scalar_str i /\
    key_permits k [(lit "alg", PStr alg); (lit "kid", PStr i)].
(** Claims about a user: they leave the claims about the token to the hook. *)
Definition token_claims : list str := map lit ["iss"; "aud"; "exp"; "iat"; "nbf"; "jti"; "at_hash"; "max_age"]%string.
Definition user_claims (info : pdict) : Prop :=
  NoDup (keys info) /\ scalar_val (PDict info) /\ text_or_null info "sub" /\ forall k, In k token_claims -> ~ In k (keys info).
(** What the application gives to the hook [h] during a request *)
Definition hook_served (E : env) (h : hook) (tr : list obs) : Prop :=
  (forall y, In (OGetKeyInfo (hk_adapter h) y) tr -> exists k alg, y = V (k, alg) /\ signing_key (e_crypto E) k alg) /\
  (forall u sc y, In (OGetUserinfo (hk_adapter h) u sc y) tr -> exists info, y = V info /\ user_claims info) /\
  scalar_str (cf_issuer (hk_config h)).
(** hashlib has the hashes of SHA-2. *)
Definition hashes (E : env) : Prop :=
  forall n, In n ["256"; "384"; "512"]%string -> exists f, e_hashlib E (lit "sha" ++ lit n) = Some f /\ forall b, bytes_ok (f b).
(** Between two readings of the clock in the request, less than [life] seconds pass; the offset from UTC does not change. *)
Definition quick (life : Z) (tr : list obs) : Prop :=
  forall t1 a oa t2 b ob t3, tr = t1 ++ ONow (V (a, oa)) :: t2 ++ ONow (V (b, ob)) :: t3 ->
  ob = oa /\ (oa <= a)%Z /\ (a <= b)%Z /\ (b <= a + (life - 1) * 1000000)%Z.

(** ** The example's tokens and claims *)
Definition mac_bytes (C : crypto) : Prop := forall h k data, bytes_ok (c_hmac C h k data).
(** RFC 9068 section 2.2: the claims of an access token for the subject [sub] and the client [c] with the scopes [sc],
    issued at [now] for an hour, and no others (not even "aud") *)
Definition access_claims (now : Z) (sub : str) (c : client) (sc : list str) (claims : pdict) : Prop :=
  lookup (lit "iss") claims = Some (PStr (lit "http://localhost:8000")) /\ lookup (lit "sub") claims = Some (PStr sub) /\
  lookup (lit "client_id") claims = Some (PStr (cl_id c)) /\ lookup (lit "scope") claims = Some (PStr (join [32] sc)) /\
  lookup (lit "iat") claims = Some (PInt now) /\ lookup (lit "exp") claims = Some (PInt (now + 3600)) /\
  (exists jti, lookup (lit "jti") claims = Some (PStr jti)) /\
  forall k, lookup k claims <> None -> In k (map lit ["iss"; "exp"; "sub"; "iat"; "jti"; "client_id"; "scope"]%string).
(** [t] is an access token that the key [k] verifies during the hour after [now], and not later. *)
Definition access_token (C : crypto) (k : jwk) (now : Z) (sub : str) (c : client) (sc : list str) (t : str) : Prop :=
  exists claims, access_claims now sub c sc claims /\
  (forall now1 now2, (now <= now1 < now + 3600)%Z -> (now <= now2 < now + 3600)%Z ->
     exists tk, jwt_decode_str C now1 now2 t (Some k) (PStr (lit "HS256")) true PNone = Ok tk /\ tclaims tk = claims) /\
  ((now + 3600 <> 0)%Z -> forall now1 now2 algv options tk, (now + 3600 <= now1)%Z ->
     jwt_decode_str C now1 now2 t (Some k) algv true options <> Ok tk).
(** OpenID Connect Core section 5.4: the claims that a scope asks for *)
Definition standard_claims (scope : str) : list str :=
  if eqs scope (lit "profile") then
    map lit ["name"; "family_name"; "given_name"; "middle_name"; "nickname"; "preferred_username"; "profile"; "picture"; "website";
             "gender"; "birthdate"; "zoneinfo"; "locale"; "updated_at"]%string
  else if eqs scope (lit "email") then map lit ["email"; "email_verified"]%string
  else if eqs scope (lit "address") then [lit "address"]
  else if eqs scope (lit "phone") then map lit ["phone_number"; "phone_number_verified"]%string
  else [].
