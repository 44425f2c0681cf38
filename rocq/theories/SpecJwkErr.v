(** The keys that a dict describes (RFC 7517, RFC 7518 section 6, as psion reads them), which error another one gets,
    and raw keys.  Specification of C15, C72, C134 and C135. *)
From Coq Require Import String Ascii List NArith ZArith Bool.
From Verif Require Import Base SpecCodec Crypto Jwk JwkFile SpecKey SpecReaders.
Import ListNotations.
Open Scope N_scope.

Definition member (d : pdict) (name : string) (v : pyval) : Prop := lookup (chars name) d = Some v.
Definition missing (d : pdict) (name : string) : Prop := lookup (chars name) d = None.
(** The member is not there, or one that Python takes for false. *)
Definition unset (d : pdict) (name : string) : Prop := forall v, member d name v -> false_value v.
(** RFC 7518 section 2: Base64urlUInt, read without regard to what is no base64url *)
Definition text_number (s : str) (n : N) : Prop :=
  Forall (fun c => c < 128) s /\ exists b, url_octets s b /\ b <> [] /\ be_value b = n.
Definition num (d : pdict) (name : string) (n : N) : Prop := exists s, member d name (PStr s) /\ text_number s n.
(** The text of the secret: strings as UTF-8, integers in decimal digits, booleans by their name *)
Inductive secret_text : pyval -> list N -> Prop :=
| st_str s t : rfc3629_str s = Some t -> secret_text (PStr s) t
| st_int z t : number_text t (PInt z) -> t <> chars "-0" -> secret_text (PInt z) t
| st_true : secret_text (PBool true) (chars "True")
| st_false : secret_text (PBool false) (chars "False").

(** ** RSA private keys *)
(** A number other than zero is given. *)
Definition given (d : pdict) (name : string) (n : N) : Prop := num d name n /\ n <> 0.
(** The prime factors are those given, if both are, otherwise those that the back end finds. *)
Definition primes (C : crypto) (d : pdict) (n e x p q : N) : Prop :=
  (given d "p" p /\ given d "q" q) \/
  ((forall p' q', ~ (given d "p" p' /\ given d "q" q')) /\ c_rsa_recover C n e x = Ok (p, q)).
Definition crt_exponent (d : pdict) (name : string) (x p v : N) : Prop :=
  given d name v \/ ((forall v', ~ given d name v') /\ p <> 1 /\ v = x mod (p - 1)).
Definition crt_coefficient (C : crypto) (d : pdict) (p q v : N) : Prop :=
  given d "qi" v \/ ((forall v', ~ given d "qi" v') /\ v = c_rsa_iqmp C p q).
(** RFC 8017 section 3.2, and what the back end requires beyond *)
Definition rsa_private (C : crypto) (n e : N) (k : rsa_priv) : Prop :=
  let p := r_p k in let q := r_q k in let d := r_d k in
  n = p * q /\ c_prime C p = true /\ c_prime C q = true /\ 1 < p < n /\ 1 < q < n /\
  (e * d) mod N.lcm (p - 1) (q - 1) = 1 mod N.lcm (p - 1) (q - 1) /\
  r_dmp1 k = d mod (p - 1) /\ r_dmq1 k = d mod (q - 1) /\ (q * r_iqmp k) mod p = 1 /\
  d < n /\ r_iqmp k < n /\ N.odd (r_dmp1 k) = true /\ N.odd (r_dmq1 k) = true.
Definition rsa_private_key (C : crypto) (d : pdict) (n e : N) (k : rsa_priv) : Prop :=
  num d "d" (r_d k) /\ primes C d n e (r_d k) (r_p k) (r_q k) /\
  crt_exponent d "dp" (r_d k) (r_p k) (r_dmp1 k) /\ crt_exponent d "dq" (r_d k) (r_q k) (r_dmq1 k) /\
  crt_coefficient C d (r_p k) (r_q k) (r_iqmp k).
(** A number member that may be left out *)
Definition readable (d : pdict) (name : string) : Prop :=
  missing d name \/ member d name PNone \/ exists n, num d name n.

(** ** The key *)
Definition curves : list (string * curve) := [("P-256", P256); ("P-384", P384); ("P-521", P521)]%string.
(** FIPS 186-4 section B.4: the private value of the point *)
Definition ec_private (C : crypto) (c : curve) (x y v : N) : Prop := 0 < v < curve_order c /\ c_ec_mul C c v = (x, y).
Definition describes (C : crypto) (d : pdict) (m : kmat) : Prop :=
  missing d "self" /\
  match m with
  | KOct b => member d "kty" (PStr (chars "oct")) /\ exists v t, member d "k" v /\ secret_text v t /\ url_octets t b
  | KRSA n e o => member d "kty" (PStr (chars "RSA")) /\ num d "n" n /\ num d "e" e /\ rsa_public n e /\
      match o with
      | None => unset d "d"
      | Some k => ~ unset d "d" /\ rsa_private_key C d n e k /\ rsa_private C n e k /\
          readable d "p" /\ readable d "q" /\ readable d "dp" /\ readable d "dq" /\ readable d "qi"
      end
  | KEC c x y o => member d "kty" (PStr (chars "EC")) /\
      (exists name, In (name, c) curves /\ member d "crv" (PStr (chars name))) /\ num d "x" x /\ num d "y" y /\ curve_point c x y /\
      match o with
      | None => unset d "d"
      | Some v => ~ unset d "d" /\ num d "d" v /\ ec_private C c x y v
      end
  end.

(** ** The checks in order *)
Definition check := (Prop * option exn)%type.
Definition number_checks (d : pdict) (name : string) : list check :=
  [(forall v, member d name v -> v = PNone \/ exists s, v = PStr s, Some TypeError);
   (forall s, member d name (PStr s) -> Forall (fun c => c < 128) s, Some UnicodeEncodeError);
   (forall s, member d name (PStr s) -> exists b, url_octets s b, Some BinasciiError);
   (forall s, member d name (PStr s) -> ~ url_octets s [], Some ValueError)].
(** Checks that only concern some keys *)
Definition only_if (P : Prop) (l : list check) : list check := map (fun c : check => (P -> fst c, snd c)) l.
Definition oct_checks (d : pdict) : list check :=
  [(missing d "self" /\ exists v, member d "k" v, Some TypeError);
   (forall v, member d "k" v -> v <> PNone /\ (forall l, v <> PList l) /\ (forall m, v <> PDict m), Some TypeError);
   (* the text of a float is not modelled *)
   (forall v s, member d "k" v -> v <> PFloat s, Some Unmodelled);
   (forall v, member d "k" v -> exists t, secret_text v t, Some UnicodeEncodeError);
   (exists v t b, member d "k" v /\ secret_text v t /\ url_octets t b, Some BinasciiError)].
Definition rsa_checks (C : crypto) (d : pdict) : list check :=
  [(missing d "self" /\ (exists v, member d "n" v) /\ (exists v, member d "e" v), Some TypeError)] ++
  number_checks d "n" ++ number_checks d "e" ++
  [(~ member d "n" PNone /\ ~ member d "e" PNone, Some TypeError);
   (exists n e, num d "n" n /\ num d "e" e /\ rsa_public n e, Some ValueError)] ++
  only_if (~ unset d "d")
    (number_checks d "d" ++ number_checks d "p" ++ number_checks d "q" ++ number_checks d "dp" ++ number_checks d "dq" ++ number_checks d "qi" ++
     [(exists n e x p q, num d "n" n /\ num d "e" e /\ num d "d" x /\ primes C d n e x p q, Some ValueError);
      (exists n e k, num d "n" n /\ num d "e" e /\ rsa_private_key C d n e k, Some ZeroDivisionError);
      (exists n e k, num d "n" n /\ num d "e" e /\ rsa_private_key C d n e k /\ rsa_private C n e k, Some ValueError)]).
Definition ec_checks (C : crypto) (d : pdict) : list check :=
  [(missing d "self" /\ (exists v, member d "crv" v) /\ (exists v, member d "x" v) /\ (exists v, member d "y" v), Some TypeError);
   (forall v, member d "crv" v -> (forall l, v <> PList l) /\ (forall m, v <> PDict m), Some TypeError);
   (exists name c, In (name, c) curves /\ member d "crv" (PStr (chars name)), Some InvalidKey)] ++
  number_checks d "x" ++ number_checks d "y" ++
  [(~ member d "x" PNone /\ ~ member d "y" PNone, Some TypeError);
   (exists name c x y, In (name, c) curves /\ member d "crv" (PStr (chars name)) /\ num d "x" x /\ num d "y" y /\ curve_point c x y, Some ValueError)] ++
  only_if (~ unset d "d")
    (number_checks d "d" ++
     [(exists name c x y v, In (name, c) curves /\ member d "crv" (PStr (chars name)) /\ num d "x" x /\ num d "y" y /\ num d "d" v /\ ec_private C c x y v, Some ValueError)]).
Definition jwk_checks (C : crypto) (v : pyval) : list check :=
  match v with
  | PDict d =>
      [(d <> [], Some InvalidKey);
       (forall t, member d "kty" t -> (forall l, t <> PList l) /\ (forall m, t <> PDict m), Some TypeError);
       (exists t, member d "kty" (PStr t) /\ In t [chars "oct"; chars "RSA"; chars "EC"], Some UnsupportedAlgorithm)] ++
      only_if (member d "kty" (PStr (chars "oct"))) (oct_checks d) ++
      only_if (member d "kty" (PStr (chars "RSA"))) (rsa_checks C d) ++
      only_if (member d "kty" (PStr (chars "EC"))) (ec_checks C d)
  | _ => [(False, Some InvalidKey)]
  end.
(** [rsa_recover_prime_factors] of the back end raises nothing but ValueError. *)
Definition recover_raises (C : crypto) : Prop := forall n e x err, c_rsa_recover C n e x = Err err -> err = ValueError.

(** ** Raw keys: CPython on Linux.  A path with a NUL is a ValueError, a name of more than 255 bytes an OSError
    (ENAMETOOLONG), and the empty path names nothing. *)
Definition linux (F : files) : Prop :=
  (forall x, In 0 x -> F x = OpenRaises ValueError) /\
  (forall x, ~ In 0 x -> ~ In 47 x -> (255 < List.length x)%nat -> F x = OpenRaises OSError) /\
  F [] = FileNotFound.
(** Nothing of that name can be read. *)
Definition no_file (F : files) (x : bytes) : Prop := F x = FileNotFound \/ F x = IsADirectory.
