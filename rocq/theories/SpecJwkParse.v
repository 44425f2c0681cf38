(** Which key [JsonWebKey.parse] finds in a file, and which error it raises: specification of C142. *)
From Coq Require Import String Ascii List NArith ZArith Bool.
From Verif Require Import Base SpecCodec Crypto Jwk JwkFile SpecKey SpecReaders SpecJwkErr SpecJwkGen.
Import ListNotations.
Open Scope N_scope.

(** The content of the file with this name, or if there is none the argument itself *)
Inductive found (F : files) (path : bytes) : bytes -> Prop :=
| found_file b : F path = Content b -> found F path b
| found_none : F path = FileNotFound \/ F path = IsADirectory -> found F path path.
Definition says (word : string) (raw : bytes) : Prop := occurs (chars word) raw.

(** The numbers in the text are those of the key; a public text has no private part. *)
Inductive reads (C : crypto) (raw : bytes) : str -> str -> kmat -> Prop :=
| reads_oct s : (forall m, In m markers -> ~ occurs m raw) -> base64_text std_values raw s -> reads C raw (chars "oct") (chars "pem") (KOct s)
| reads_oct_der : reads C raw (chars "oct") (chars "der") (KOct raw)
| reads_rsa_private n e k : says "PRIVATE" raw -> c_pem_private C raw = Ok (PemRSA n e (Some k)) ->
    reads C raw (chars "RSA") (chars "pem") (KRSA n e (Some k))
| reads_rsa_public n e o : ~ says "PRIVATE" raw -> says "PUBLIC" raw -> c_pem_public C raw = Ok (PemRSA n e o) ->
    reads C raw (chars "RSA") (chars "pem") (KRSA n e None)
| reads_ec_private c x y d : says "PRIVATE" raw -> c_pem_private C raw = Ok (PemEC (Some c) x y (Some d)) ->
    reads C raw (chars "EC") (chars "pem") (KEC c x y (Some d))
| reads_ec_public c x y o : ~ says "PRIVATE" raw -> says "PUBLIC" raw -> c_pem_public C raw = Ok (PemEC (Some c) x y o) ->
    reads C raw (chars "EC") (chars "pem") (KEC c x y None).
(** The PEM reader of the back end returns keys that the back end itself takes.  (No coordinate is zero, as in [sound].) *)
Definition pem_fit (C : crypto) (k : pem_key) : Prop :=
  match k with
  | PemRSA n e o => rsa_public n e /\ forall p, o = Some p -> rsa_private_ok C n e p = true
  | PemEC (Some c) x y o => curve_point c x y /\ x <> 0 /\ y <> 0 /\ forall d, o = Some d -> ec_private_ok C c d x y = true
  | _ => True
  end.
Definition pem_sound (C : crypto) : Prop :=
  forall raw k, c_pem_private C raw = Ok k \/ c_pem_public C raw = Ok k -> pem_fit C k.

(** ** Errors *)
Definition of_kind (algorithm : str) (private : bool) (k : pem_key) : Prop :=
  (algorithm = chars "RSA" /\ exists n e o, k = PemRSA n e o /\ (private = true -> o <> None)) \/
  (algorithm = chars "EC" /\ exists c x y o, k = PemEC (Some c) x y o /\ (private = true -> o <> None)).
(** The error of the back end, where it raises one *)
Definition error_of {A} (r : result A) : option exn := match r with Err e => Some e | Ok _ => Some ValueError end.
Definition parse_checks (C : crypto) (raw : bytes) (algorithm : str) (public : bool) (format : str) : list check :=
  [(In algorithm [chars "oct"; chars "RSA"; chars "EC"], Some UnsupportedAlgorithm);
   (format = chars "pem" \/ (algorithm = chars "oct" /\ format = chars "der"), Some UnsupportedParsingMethod)] ++
  only_if (algorithm = chars "oct" /\ format = chars "pem")
    [(forall m, In m markers -> ~ occurs m raw, Some InvalidKey);
     (exists s, base64_text std_values raw s, Some BinasciiError)] ++
  only_if (algorithm <> chars "oct")
    [(says "PRIVATE" raw \/ says "PUBLIC" raw, Some InvalidKey);
     (says "PRIVATE" raw -> exists k, c_pem_private C raw = Ok k, error_of (c_pem_private C raw));
     (~ says "PRIVATE" raw -> exists k, c_pem_public C raw = Ok k, error_of (c_pem_public C raw));
     (exists k, (says "PRIVATE" raw /\ c_pem_private C raw = Ok k /\ of_kind algorithm true k) \/
                (~ says "PRIVATE" raw /\ c_pem_public C raw = Ok k /\ of_kind algorithm false k), Some InvalidKey);
     (public = true \/ says "PRIVATE" raw, Some RuntimeError)].
