(** What [JsonWebKey.sign] returns and [JsonWebKey.verify] takes, for the statements of C147 and C148. *)
From Coq Require Import String Ascii List NArith ZArith Bool.
From Verif Require Import Base SpecCodec Webtools Crypto Jwk SpecKey Jws SpecJws SpecReaders SpecJoseErr JwkSign.
Import ListNotations.
Open Scope N_scope.

(** The names of jwa/jwk.py *)
Definition hash_names : list (str * hash) := [(chars "SHA256", SHA256); (chars "SHA384", SHA384); (chars "SHA512", SHA512)].
Definition padding_names : list (str * padding) := [(chars "PKCS1v15", PKCS1v15); (chars "PSS", PSS SaltMax)].
Definition names_hash (a : hash_arg) (h : hash) : Prop := a = Member h \/ exists s, a = Given (PStr s) /\ In (s, h) hash_names.
(** The further argument of RSA keys *)
Definition padding_arg (v : pyval) : pdict := [(chars "rsa_padding", v)].

(** The arguments fit the class of the key. *)
Definition args_fit (m : kmat) (kw : pdict) : Prop :=
  match m with KRSA _ _ _ => exists v, kw = padding_arg v | _ => kw = [] end.
Definition padding_known (m : kmat) (kw : pdict) : Prop :=
  match m with KRSA _ _ _ => exists s p, kw = padding_arg (PStr s) /\ In (s, p) padding_names | _ => True end.

(** RFC 8017 sections 8.1.1 and 8.2.1 *)
Definition room_to_sign (n : N) (p : padding) (h : hash) : Prop :=
  match p with PKCS1v15 => (digest_size h + 30 <= byte_len n)%nat | PSS _ => (digest_size h + 2 <= byte_len n)%nat end.
(** With PSS the back end also looks at the size when it verifies. *)
Definition room_to_verify (n : N) (p : padding) (h : hash) : Prop := p = PKCS1v15 \/ (digest_size h + 2 <= byte_len n)%nat.
Definition has_room (room : N -> padding -> hash -> Prop) (m : kmat) (a : hash_arg) (kw : pdict) : Prop :=
  forall n e o s p h, m = KRSA n e o -> kw = padding_arg (PStr s) -> In (s, p) padding_names -> names_hash a h -> room n p h.

(** [sig] is what the key [m] gives for [data]. *)
Inductive signature_of (C : crypto) (rand data : bytes) : kmat -> hash -> pdict -> bytes -> Prop :=
| of_oct s h : signature_of C rand data (KOct s) h [] (c_hmac C h s data)
| of_ec c x y d h : signature_of C rand data (KEC c x y (Some d)) h [] (der_sig (c_ec_sign C rand c d h data))
| of_rsa n e k h s p sig : In (s, p) padding_names -> room_to_verify n p h -> c_rsa_sign C rand n k p h data = Ok sig ->
    signature_of C rand data (KRSA n e (Some k)) h (padding_arg (PStr s)) sig.
(** [sig] is a signature of [data] by the owner of [m]. *)
Inductive verified (C : crypto) (data : bytes) : kmat -> hash -> pdict -> bytes -> Prop :=
| by_oct s h : verified C data (KOct s) h [] (c_hmac C h s data)
| by_ec c x y o h r s : 0 < r < curve_order c -> 0 < s < curve_order c -> c_ec_verify C c x y h (r, s) data = true ->
    verified C data (KEC c x y o) h [] (der_sig (r, s))
| by_rsa n e o h s p sig : In (s, p) padding_names -> room_to_verify n p h -> c_rsa_verify C n e p h sig data = true ->
    verified C data (KRSA n e o) h (padding_arg (PStr s)) sig.

(** The checks, in their order *)
Definition hash_checks (a : hash_arg) : list (Prop * option exn) :=
  [(forall v, a = Given v -> exists s, v = PStr s, Some AttributeError);
   (exists h, names_hash a h, Some KeyError)].
Definition sign_checks (m : kmat) (a : hash_arg) (kw : pdict) : list (Prop * option exn) :=
  [(args_fit m kw, Some TypeError); (private_part m, Some InvalidKey)] ++ hash_checks a ++
  [(padding_known m kw, Some InvalidKey); (has_room room_to_sign m a kw, Some ValueError)].
Definition verify_checks (C : crypto) (m : kmat) (sig data : bytes) (a : hash_arg) (kw : pdict) : list (Prop * option exn) :=
  [(args_fit m kw, Some TypeError)] ++ hash_checks a ++
  [(padding_known m kw, Some InvalidKey); (has_room room_to_verify m a kw, Some ValueError);
   (exists h, names_hash a h /\ verified C data m h kw sig, Some InvalidSignature)].
