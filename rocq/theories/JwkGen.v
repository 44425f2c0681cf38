(** Model of [JsonWebKey.generate] in src/psion/jose/jwk.py, over the random sources of its three classes. *)
From Coq Require Import String Ascii List NArith ZArith Bool.
From Verif Require Import Base Crypto Jwk.
Import ListNotations.
Open Scope N_scope.

(** What the random sources return this time: [secrets.token_bytes(size)] (jwa/jwk.py 483),
    [rsa.generate_private_key(65537, size)] (jwa/jwk.py 726: the modulus and the private numbers) and
    [ec.generate_private_key(crv)] (jwa/jwk.py 266: the point and the private value). *)
Record generator := {
  g_bytes : Z -> bytes;
  g_rsa : Z -> result (N * rsa_priv);
  g_ec : curve -> N * N * N
}.

(** An option as a number: [size < 32] raises TypeError for a str, list or dict.  The comparison with a float is not
    modelled. *)
Definition option_size (v : pyval) : result Z :=
  match v with
  | PInt z => Ok z
  | PBool b => Ok (if b then 1 else 0)%Z
  | PFloat _ => Err Unmodelled
  | PNone | PStr _ | PList _ | PDict _ => Err TypeError
  end.

(** jwk.py 68-76: the class makes the key, with the option if Python takes it for true, else with the default of the
    class (jwa/jwk.py 467 [size=32], 710 [size=2048]; [ECKey.generate] at 251 has none: TypeError). *)
Definition class_generate (C : crypto) (G : generator) (algorithm : str) (option : pyval) : result kmat :=
  if eqs algorithm (lit "oct") then
    let! size := (if truthy option then option_size option else Ok 32%Z) in
    oct_generate size (g_bytes G size)
  else if eqs algorithm (lit "RSA") then
    let! size := (if truthy option then option_size option else Ok 2048%Z) in
    if (size <? 512)%Z then Err InvalidKey
    else let! (n, k) := g_rsa G size in rsa_generate C size n 65537 k
  else
    if truthy option then
      match option with
      | PStr crv =>
          match curve_of crv with
          | None => Err InvalidKey
          | Some c => let '(x, y, d) := g_ec G c in ec_generate C crv x y d
          end
      | _ => if hashable option then Err InvalidKey else Err TypeError
      end
    else Err TypeError.

(** jwk.py 47-80 [JsonWebKey.generate(algorithm, option, **params)]; the params are those Python takes as such (not
    "cls", "algorithm", "option"). *)
Definition key_generate (C : crypto) (G : generator) (algorithm : str) (option : pyval) (params : pdict) : result jwk :=
  if negb (ins algorithm key_types) then Err UnsupportedAlgorithm
  else jwk_generate C (class_generate C G algorithm option) params.
