(** Which key [JsonWebKey.generate] is asked for, and which error it raises: specification of C137 and C138. *)
From Coq Require Import String Ascii List NArith ZArith Bool.
From Verif Require Import Base SpecCodec Crypto Jwk JwkGen SpecKey SpecPy SpecReaders SpecJwkErr.
Import ListNotations.
Open Scope N_scope.

Inductive ask := AskOct (size : Z) | AskRSA (bits : Z) | AskEC (c : curve).
(** The names and options that ask for a key: RFC 7518 sections 3.2 (32 octets for HS256) and 6.2.1.1; an option that
    counts as false is none, then a symmetric key has 32 octets and an RSA key 2048 bits. *)
Inductive asks : str -> pyval -> ask -> Prop :=
| asks_oct z : (32 <= z)%Z -> asks (chars "oct") (PInt z) (AskOct z)
| asks_oct_default v : false_value v -> asks (chars "oct") v (AskOct 32)
| asks_rsa z : (512 <= z)%Z -> asks (chars "RSA") (PInt z) (AskRSA z)
| asks_rsa_default v : false_value v -> asks (chars "RSA") v (AskRSA 2048)
| asks_ec name c : In (name, c) curves -> asks (chars "EC") (PStr (chars name)) (AskEC c).
(** The random source answers with this key. *)
Definition answers (G : generator) (a : ask) (m : kmat) : Prop :=
  match a with
  | AskOct z => m = KOct (g_bytes G z)
  | AskRSA z => exists n k, g_rsa G z = Ok (n, k) /\ m = KRSA n 65537 (Some k)
  | AskEC c => exists x y d, g_ec G c = (x, y, d) /\ m = KEC c x y (Some d)
  end.
(** The random sources do what they are for: as many octets as asked for, RSA and EC keys that the back end takes back.
    (No coordinate is zero: such points have negligible probability, and psion cannot dump them.) *)
Definition sound (C : crypto) (G : generator) : Prop :=
  (forall z, bytes_ok (g_bytes G z)) /\
  (forall z, (0 <= z)%Z -> Z.of_nat (List.length (g_bytes G z)) = z) /\
  (forall z n k, g_rsa G z = Ok (n, k) -> rsa_public n 65537 /\ rsa_private_ok C n 65537 k = true) /\
  (forall z e, g_rsa G z = Err e -> e = ValueError) /\
  (forall c x y d, g_ec G c = (x, y, d) -> curve_point c x y /\ ec_private_ok C c d x y = true /\ x <> 0 /\ y <> 0).
(** Parameters that are no part of the key material *)
Definition key_names : list str := map chars ["kty"; "self"; "k"; "n"; "e"; "d"; "p"; "q"; "dp"; "dq"; "qi"; "crv"; "x"; "y"]%string.
Definition extra (params : pdict) : Prop := NoDup (map fst params) /\ forall a, In a (map fst params) -> ~ In a key_names.

(** ** Errors *)
(** A size is an integer, of which True is 1. *)
Definition size_checks (min : Z) (option : pyval) : list check :=
  [((forall s, option <> PStr s) /\ (forall l, option <> PList l) /\ (forall d, option <> PDict d), Some TypeError);
   (* sizes given as a float are not modelled *)
   (forall s, option <> PFloat s, Some Unmodelled);
   (exists z, whole option z /\ (min <= z)%Z, Some InvalidKey)].
Definition generate_checks (G : generator) (algorithm : str) (option : pyval) : list check :=
  [(In algorithm [chars "oct"; chars "RSA"; chars "EC"], Some UnsupportedAlgorithm)] ++
  only_if (algorithm = chars "oct" /\ ~ false_value option) (size_checks 32 option) ++
  only_if (algorithm = chars "RSA" /\ ~ false_value option) (size_checks 512 option) ++
  only_if (algorithm = chars "RSA")
    [(exists z n k, asks algorithm option (AskRSA z) /\ g_rsa G z = Ok (n, k), Some ValueError)] ++
  only_if (algorithm = chars "EC")
    [(~ false_value option /\ (forall l, option <> PList l) /\ (forall d, option <> PDict d), Some TypeError);
     (exists name c, In (name, c) curves /\ option = PStr (chars name), Some InvalidKey)].
