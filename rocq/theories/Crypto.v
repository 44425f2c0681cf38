(** The cryptographic back end, an oracle, and the checks of `cryptography` 3.3.1 that
    src/psion/jose/jwa/jwk.py relies on.

    What the `cryptography` package computes from keys (MACs, signatures, primality, scalar
    multiplication, PEM) is a field of the record [crypto].  Nothing is assumed of these
    fields here; a theorem that needs a law of them has it as a premise. *)
From Coq Require Import String Ascii List NArith ZArith Bool.
From Verif Require Import Base Webtools SpecCodec.
Import ListNotations.
Open Scope N_scope.

(** jwa/jwk.py 28-35 [ALGORITHMS] *)
Inductive hash := SHA256 | SHA384 | SHA512.

(** jwa/jwk.py 218-222 [ECKey.CURVES] *)
Inductive curve := P256 | P384 | P521.

(** jwa/jwk.py 38, 895-903, 936-944: PKCS1v15, or PSS with MGF1 over the same hash and the
    salt length given. *)
Inductive salt_length := SaltMax | SaltDigest.
Inductive padding := PKCS1v15 | PSS (s : salt_length).

(** rsa.RSAPrivateNumbers without the public part *)
Record rsa_priv := { r_d : N; r_p : N; r_q : N; r_dmp1 : N; r_dmq1 : N; r_iqmp : N }.

(** What [load_pem_private_key] and [load_pem_public_key] return. *)
Inductive pem_key :=
| PemRSA (n e : N) (priv : option rsa_priv)
| PemEC (crv : option curve) (x y : N) (d : option N)   (* [None]: another curve *)
| PemOther.

Record crypto := {
  c_hmac : hash -> bytes -> bytes -> bytes;                       (* key, data *)
  c_prime : N -> bool;                                            (* BN_is_prime_fasttest_ex *)
  c_rsa_recover : N -> N -> N -> result (N * N);                  (* rsa_recover_prime_factors n e d *)
  c_rsa_iqmp : N -> N -> N;                                       (* rsa_crt_iqmp p q *)
  c_rsa_sign : bytes -> N -> rsa_priv -> padding -> hash -> bytes -> result bytes;   (* randomness, n, key, .., data *)
  c_rsa_verify : N -> N -> padding -> hash -> bytes -> bytes -> bool;                (* n, e, .., signature, data *)
  c_ec_mul : curve -> N -> N * N;                                 (* d * G for 0 < d < order *)
  c_ec_sign : bytes -> curve -> N -> hash -> bytes -> N * N;      (* randomness, curve, d, .., data: (r, s) *)
  c_ec_verify : curve -> N -> N -> hash -> N * N -> bytes -> bool;
  c_pem_private : bytes -> result pem_key;
  c_pem_public : bytes -> result pem_key;
  c_pem_export_private : pem_key -> bytes;
  c_pem_export_public : pem_key -> bytes
}.

(** ** Elliptic curves: domain parameters (SEC 2; FIPS 186-4 D.1.2) *)
Definition curve_p (c : curve) : N :=
  match c with
  | P256 => 2 ^ 256 - 2 ^ 224 + 2 ^ 192 + 2 ^ 96 - 1
  | P384 => 2 ^ 384 - 2 ^ 128 - 2 ^ 96 + 2 ^ 32 - 1
  | P521 => 2 ^ 521 - 1
  end.
Definition curve_b (c : curve) : N :=
  match c with
  | P256 => 41058363725152142129326129780047268409114441015993725554835256314039467401291
  | P384 => 27580193559959705877849011840389048093056905856361568521428707301988689241309860865136260764883745107765439761230575
  | P521 => 1093849038073734274511112390766805569936207598951683748994586394495953116150735016013708737573759623248592132296706313309438452531591012912142327488478985984
  end.
Definition curve_order (c : curve) : N :=
  match c with
  | P256 => 115792089210356248762697446949407573529996955224135760342422259061068512044369
  | P384 => 39402006196394479212279040100143613805079739270465446667946905279627659399113263569398956308152294913554433653942643
  | P521 => 6864797660130609714981900799081393217269435300143305409394463459185543183397655394245057746333217197532963996371363321113864768612440380340372808892707005449
  end.
(** [EC_KEY_set_public_key_affine_coordinates]: the coordinates are in range and satisfy
    y^2 = x^3 - 3 x + b.  A failure becomes ValueError. *)
Definition on_curve (c : curve) (x y : N) : bool :=
  let p := curve_p c in
  (x <? p) && (y <? p) && ((y * y) mod p =? (x * x * x + (p - 3) * x + curve_b c) mod p).

(** [EC_KEY_check_key] with a private value: 0 < d < order and d * G is the public point. *)
Definition ec_private_ok (C : crypto) (c : curve) (d x y : N) : bool :=
  (0 <? d) && (d <? curve_order c) && (let (x', y') := c_ec_mul C c d in (x' =? x) && (y' =? y)).

(** [ECDSA_do_verify]: r and s must be in [1, order - 1] (FIPS 186-4 section 6.4 step 1). *)
Definition ec_sig_range (c : curve) (rs : N * N) : bool :=
  (0 <? fst rs) && (fst rs <? curve_order c) && (0 <? snd rs) && (snd rs <? curve_order c).

(** ** RSA: [_check_public_key_components] *)
Definition rsa_public_ok (n e : N) : bool :=
  (3 <=? n) && (3 <=? e) && (e <? n) && N.odd e.

(** [_check_private_key_components] followed by OpenSSL's [RSA_check_key]. *)
Definition rsa_private_ok (C : crypto) (n e : N) (k : rsa_priv) : bool :=
  (3 <=? n) && (r_p k <? n) && (r_q k <? n) && (r_dmp1 k <? n) && (r_dmq1 k <? n) && (r_iqmp k <? n)
  && (r_d k <? n) && (3 <=? e) && (e <? n) && N.odd e && N.odd (r_dmp1 k) && N.odd (r_dmq1 k)
  && (r_p k * r_q k =? n)
  && (1 <? r_p k) && c_prime C (r_p k) && (1 <? r_q k) && c_prime C (r_q k)
  && ((r_d k * e) mod (N.lcm (r_p k - 1) (r_q k - 1)) =? 1 mod (N.lcm (r_p k - 1) (r_q k - 1)))
  && (r_dmp1 k =? r_d k mod (r_p k - 1)) && (r_dmq1 k =? r_d k mod (r_q k - 1))
  && ((r_iqmp k * r_q k) mod r_p k =? 1).

(** [_rsa_sig_determine_padding]: with PSS the modulus must have room for the digest and two octets,
    otherwise ValueError, when signing and when verifying. *)
Definition digest_size (h : hash) : nat := match h with SHA256 => 32 | SHA384 => 48 | SHA512 => 64 end.
Definition padding_fits (n : N) (p : padding) (h : hash) : bool :=
  match p with PKCS1v15 => true | PSS _ => Nat.leb (digest_size h + 2) (byte_len n) end.

(** ** DER of an ECDSA signature: SEQUENCE { INTEGER r, INTEGER s }, lengths up to 255 octets *)
Definition der_len (n : nat) : bytes :=
  if Nat.ltb n 128 then [N.of_nat n] else [129; N.of_nat n].
Definition der_int (n : N) : bytes :=
  let b := be_bytes (byte_len n) n in
  let b' := match b with [] => [0] | x :: _ => if 128 <=? x then 0 :: b else b end in
  2 :: der_len (length b') ++ b'.
Definition der_sig (rs : N * N) : bytes :=
  let c := der_int (fst rs) ++ der_int (snd rs) in 48 :: der_len (length c) ++ c.

Definition der_take (tag : N) (s : bytes) : option (bytes * bytes) :=
  match s with
  | t :: l :: r =>
      if negb (t =? tag) then None
      else if l <? 128 then Some (firstn (N.to_nat l) r, skipn (N.to_nat l) r)
      else match r with
           | l' :: r' => if l =? 129 then Some (firstn (N.to_nat l') r', skipn (N.to_nat l') r') else None
           | [] => None
           end
  | _ => None
  end.
(** [ECDSA_verify] parses the signature and accepts it only if it is the DER encoding of what was parsed. *)
Definition der_parse (s : bytes) : option (N * N) :=
  match der_take 48 s with
  | Some (c, []) =>
      match der_take 2 c with
      | Some (r, c') =>
          match der_take 2 c' with
          | Some (t, []) =>
              let rs := (be_value r, be_value t) in
              if eqs (der_sig rs) s then Some rs else None
          | _ => None
          end
      | None => None
      end
  | _ => None
  end.
