(** jose/jwk.py 168-202 and the classes behind it: [JsonWebKey.sign] and [JsonWebKey.verify] as they are called directly, with any
    name of a hash and any further arguments.  Jwk.v has the part that the JWS algorithms use. *)
From Coq Require Import String Ascii List NArith ZArith Bool.
From Verif Require Import Base Webtools Crypto Jwk.
Import ListNotations.
Open Scope N_scope.

Section KeySign.
Variable C : crypto.

(** jwa/jwk.py 28-38 [ALGORITHMS], [AlgType]: a member of the enumeration or anything else *)
Inductive hash_arg := Member (h : hash) | Given (v : pyval).
(** The subscription of an Enum raises KeyError for names that are none of its members. *)
Definition hash_named (s : str) : result hash :=
  if eqs s (lit "SHA256") then Ok SHA256
  else if eqs s (lit "SHA384") then Ok SHA384
  else if eqs s (lit "SHA512") then Ok SHA512
  else Err KeyError.
(** jwa/jwk.py 47-60 [_get_alg] *)
Definition get_alg (a : hash_arg) : result hash :=
  match a with
  | Member h => Ok h
  | Given (PStr s) => hash_named s
  | Given _ => Err AttributeError
  end.

(** The signatures [sign(self, data, algorithm)] (jwa/jwk.py 404, 576) and [verify(self, signature, data, algorithm)] (423, 594) take no
    further argument; those of RSA (875, 907) take exactly [rsa_padding].  Everything else is a TypeError of the call. *)
Definition no_kwargs (kw : pdict) : result unit := match kw with [] => Ok tt | _ => Err TypeError end.
Definition padding_kwarg (kw : pdict) : result pyval :=
  match kw with
  | [(name, v)] => if eqs name (lit "rsa_padding") then Ok v else Err TypeError
  | _ => Err TypeError
  end.
(** jwa/jwk.py 897-905, 933-946: the comparisons of [rsa_padding] *)
Definition padding_named (v : pyval) : result padding :=
  match v with
  | PStr s => if eqs s (lit "PKCS1v15") then Ok PKCS1v15
              else if eqs s (lit "PSS") then Ok (PSS SaltMax)
              else Err InvalidKey
  | _ => Err InvalidKey
  end.

(** jwk.py 168-182 [JsonWebKey.sign]; jwa/jwk.py 404-421, 576-592, 875-905 *)
Definition key_sign (rand : bytes) (k : jwk) (data : bytes) (a : hash_arg) (kw : pdict) : result bytes :=
  match jmat k with
  | KOct s =>
      let! _ := no_kwargs kw in
      let! h := get_alg a in
      mat_sign C rand (KOct s) data h None
  | KRSA n e priv =>
      let! v := padding_kwarg kw in
      match priv with
      | None => Err InvalidKey
      | Some _ =>
          let! h := get_alg a in
          let! p := padding_named v in
          mat_sign C rand (KRSA n e priv) data h (Some p)
      end
  | KEC c x y d =>
      let! _ := no_kwargs kw in
      match d with
      | None => Err InvalidKey
      | Some _ =>
          let! h := get_alg a in
          mat_sign C rand (KEC c x y d) data h None
      end
  end.

(** jwk.py 184-202 [JsonWebKey.verify]; jwa/jwk.py 423-442, 594-615, 907-948 *)
Definition key_verify (k : jwk) (sig data : bytes) (a : hash_arg) (kw : pdict) : result unit :=
  match jmat k with
  | KRSA n e priv =>
      let! v := padding_kwarg kw in
      let! h := get_alg a in
      let! p := padding_named v in
      mat_verify C (KRSA n e priv) sig data h (Some p)
  | m =>
      let! _ := no_kwargs kw in
      let! h := get_alg a in
      mat_verify C m sig data h None
  end.

End KeySign.
