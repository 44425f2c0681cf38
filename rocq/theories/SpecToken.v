(** The text of a signed token (RFC 7515 sections 3.1 and 7.1), for the statement of C146. *)
From Coq Require Import String Ascii List NArith ZArith Bool.
From Verif Require Import Base SpecCodec Webtools Crypto Jwk SpecKey Jws SpecJws SpecReaders SpecWrite.
Import ListNotations.
Open Scope N_scope.

(** [sig] is what the private key [m] gives for [data] under the algorithm called [name], with the random octets [rand]. *)
Inductive signs (C : crypto) (rand : bytes) : kmat -> str -> bytes -> bytes -> Prop :=
| sign_hs s name h data : In (name, h) hs_names ->
    signs C rand (KOct s) name data (c_hmac C h s data)
| sign_rs n e k name h data sig : In (name, h) rs_names -> c_rsa_sign C rand n k PKCS1v15 h data = Ok sig ->
    signs C rand (KRSA n e (Some k)) name data sig
| sign_ps n e k name h data sig : In (name, h) ps_names -> (digest_size h + 2 <= byte_len n)%nat ->
    c_rsa_sign C rand n k (PSS SaltMax) h data = Ok sig ->
    signs C rand (KRSA n e (Some k)) name data sig
| sign_es c x y d name h data : In (name, (c, h)) es_names ->
    signs C rand (KEC c x y (Some d)) name data (der_sig (c_ec_sign C rand c d h data)).

(** The header [d] and the octets [payload], as they are signed *)
Definition signing_input (d : pdict) (payload input : bytes) : Prop :=
  exists header, octets_of (PDict (without_none d)) header /\
    input = rfc4648_url header ++ chars "." ++ rfc4648_url payload.
(** What stands behind the second dot *)
Definition third_segment (C : crypto) (rand : bytes) (m : kmat) (d : pdict) (input segment : bytes) : Prop :=
  exists name, lookup (chars "alg") d = Some (PStr name) /\
    ((name = chars "none" /\ segment = []) \/ exists sig, signs C rand m name input sig /\ segment = rfc4648_url sig).
Definition token_text (C : crypto) (rand : bytes) (k : jwk) (d : pdict) (payload token : bytes) : Prop :=
  key_permits k d /\ exists input segment,
    signing_input d payload input /\ third_segment C rand (jmat k) d input segment /\ token = input ++ chars "." ++ segment.
