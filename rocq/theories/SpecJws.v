(** Specifications used by the statements of PropsJws and PropsJwt. *)
From Coq Require Import String Ascii List NArith ZArith Bool.
From Verif Require Import Base SpecPy SpecCodec Webtools Crypto Jwk SpecKey Jws.
Import ListNotations.
Open Scope N_scope.

(** RFC 7518 section 3.1: the algorithms and what each name prescribes. *)
Definition hs_names : list (str * hash) := [(lit "HS256", SHA256); (lit "HS384", SHA384); (lit "HS512", SHA512)].
Definition rs_names : list (str * hash) := [(lit "RS256", SHA256); (lit "RS384", SHA384); (lit "RS512", SHA512)].
Definition ps_names : list (str * hash) := [(lit "PS256", SHA256); (lit "PS384", SHA384); (lit "PS512", SHA512)].
Definition es_names : list (str * (curve * hash)) :=
  [(lit "ES256", (P256, SHA256)); (lit "ES384", (P384, SHA384)); (lit "ES512", (P521, SHA512))].
Definition registered : list str :=
  lit "none" :: map fst hs_names ++ map fst rs_names ++ map fst ps_names ++ map fst es_names.

(** [sig] is a signature (or MAC) of [data] under the key [m] and the algorithm called [name].
    For PS* the salt length and for ES* the format of the signature are those of the code, not of RFC 7518:
    see C76 and C77. *)
Inductive accepts (C : crypto) : kmat -> str -> bytes -> bytes -> Prop :=
| acc_hs s name h data : In (name, h) hs_names ->
    accepts C (KOct s) name (c_hmac C h s data) data
| acc_rs n e o name h sig data : In (name, h) rs_names -> c_rsa_verify C n e PKCS1v15 h sig data = true ->
    accepts C (KRSA n e o) name sig data
| acc_ps n e o name h sig data : In (name, h) ps_names -> (digest_size h + 2 <= byte_len n)%nat ->
    c_rsa_verify C n e (PSS SaltMax) h sig data = true ->
    accepts C (KRSA n e o) name sig data
| acc_es c x y o name h r s data : In (name, (c, h)) es_names ->
    0 < r < curve_order c -> 0 < s < curve_order c -> c_ec_verify C c x y h (r, s) data = true ->
    accepts C (KEC c x y o) name (der_sig (r, s)) data.

(** A JWS header as RFC 7515 section 4 and the docstrings of the validators describe it. *)
Definition header_valid (d : pdict) : Prop :=
  (exists a, lookup (lit "alg") d = Some (PStr a) /\ In a registered) /\
  (forall name v, In name [lit "kid"; lit "typ"; lit "cty"] -> lookup name d = Some v ->
     exists s, v = PStr s /\ s <> []) /\
  (forall v, lookup (lit "crit") d = Some v ->
     exists l, v = PList l /\ l <> [] /\
       forall x, In x l -> exists s w, x = PStr s /\ s <> [] /\ lookup s d = Some w /\ ~ false_value w).

(** The dict without its None items. *)
Definition without_none (d : pdict) : pdict := filter (fun kv => match snd kv with PNone => false | _ => true end) d.

(** The restrictions a key states about its own use (RFC 7517 sections 4.2-4.5), against a header.
    A restriction with a falsy value counts as absent. *)
Definition key_permits (k : jwk) (h : pdict) : Prop :=
  (~ false_value (dget (lit "alg") (jdata k)) -> dget (lit "alg") (jdata k) = dget (lit "alg") h) /\
  (~ false_value (dget (lit "kid") h) -> dget (lit "kid") (jdata k) = dget (lit "kid") h) /\
  (~ false_value (dget (lit "use") (jdata k)) -> dget (lit "use") (jdata k) = PStr (lit "sig")) /\
  (~ false_value (dget (lit "key_ops") (jdata k)) ->
     (exists l, dget (lit "key_ops") (jdata k) = PList l /\
        forall x, In x l -> x = PStr (lit "sign") \/ x = PStr (lit "verify")) \/
     (exists d, dget (lit "key_ops") (jdata k) = PDict d /\
        forall x, In x (keys d) -> x = lit "sign" \/ x = lit "verify")).

(** Three segments separated by dots. *)
Definition segments (token h p s : bytes) : Prop :=
  token = h ++ 46 :: p ++ 46 :: s /\ ~ In 46 h /\ ~ In 46 p /\ ~ In 46 s.
Definition dots (token : bytes) : nat := count_occ N.eq_dec token 46.

(** What a correct back end does with the key [m]: a premise of the round trips. *)
Definition backend_correct (C : crypto) (m : kmat) : Prop :=
  match m with
  | KOct s => forall h data, bytes_ok (c_hmac C h s data)
  | KRSA n e None => True
  | KRSA n e (Some k) => forall rand p h data sig, c_rsa_sign C rand n k p h data = Ok sig ->
      bytes_ok sig /\ c_rsa_verify C n e p h sig data = true
  | KEC c x y None => True
  | KEC c x y (Some d) => forall rand h data, exists r s, c_ec_sign C rand c d h data = (r, s) /\
      0 < r < curve_order c /\ 0 < s < curve_order c /\ c_ec_verify C c x y h (r, s) data = true
  end.

(** [k'] is the key [k] itself or its public part, with the same other members. *)
Definition verifying_key (k k' : jwk) : Prop :=
  (jmat k' = jmat k \/ jmat k' = public_part (jmat k)) /\
  (forall a, In a [lit "kty"; lit "crv"; lit "alg"; lit "kid"; lit "use"; lit "key_ops"] -> dget a (jdata k') = dget a (jdata k)).

(** The back end with another MAC. *)
Definition with_hmac (C : crypto) (f : hash -> bytes -> bytes -> bytes) : crypto :=
  {| c_hmac := f; c_prime := c_prime C; c_rsa_recover := c_rsa_recover C; c_rsa_iqmp := c_rsa_iqmp C;
     c_rsa_sign := c_rsa_sign C; c_rsa_verify := c_rsa_verify C; c_ec_mul := c_ec_mul C;
     c_ec_sign := c_ec_sign C; c_ec_verify := c_ec_verify C;
     c_pem_private := c_pem_private C; c_pem_public := c_pem_public C;
     c_pem_export_private := c_pem_export_private C; c_pem_export_public := c_pem_export_public C |}.

(** The errors [deserialize] documents (jws.py 300-302, 99-100) and those that escape besides. *)
Definition jws_errors : list exn :=
  [InvalidJWSSerialization; InvalidJWSHeader; InvalidKey; InvalidSignature; UnsupportedAlgorithm].
Definition jws_escaping : list exn := [TypeError; ValueError; BinasciiError; JSONDecodeError].
