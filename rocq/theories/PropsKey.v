(** Properties C134-C136: raw keys, and which error JsonWebKey and JsonWebKeySet raise for which dict. *)
From Coq Require Import String Ascii List NArith ZArith Bool.
From Verif Require Import Base SpecCodec Base64 Webtools Crypto RefCrypto Jwk JwkFile SpecKey SpecReaders SpecJwkErr JwkErrFacts JwkWit SpecKeySet KeySetFacts.
Import ListNotations.
Open Scope N_scope.

(** C134 is refuted: no key with a zero octet can be given as bytes, ... *)
Theorem C134_nul_refuted : forall C F x alg pub format options, linux F -> In 0 x -> In alg [chars "oct"; chars "RSA"; chars "EC"] ->
  key_parse C F x alg pub format options = Err ValueError.
Proof. exact raw_nul. Qed.
Print Assumptions C134_nul_refuted.
(** ... none of more than 255 octets without "/", ... *)
Theorem C134_long_refuted : forall C F x alg pub format options, linux F -> ~ In 0 x -> ~ In 47 x -> (255 < List.length x)%nat ->
  In alg [chars "oct"; chars "RSA"; chars "EC"] -> key_parse C F x alg pub format options = Err OSError.
Proof. exact raw_long. Qed.
Print Assumptions C134_long_refuted.
(** ... and of a secret that is the name of a file the content of the file is taken. *)
Theorem C134_file_refuted : forall C F x b, F x = Content b -> bytes_ok b ->
  exists k, key_parse C F x (lit "oct") false (lit "der") [] = Ok k /\ jmat k = KOct b.
Proof. exact raw_file. Qed.
Print Assumptions C134_file_refuted.
(** What holds: other secrets are taken as they are. *)
Theorem C134_raw_partial : forall C F x, no_file F x -> bytes_ok x ->
  exists k, key_parse C F x (lit "oct") false (lit "der") [] = Ok k /\ jmat k = KOct x.
Proof. exact raw_secret. Qed.
Print Assumptions C134_raw_partial.
Example C134_example :
  let parse x format := rmap jmat (key_parse ref disk x (lit "oct") false (lit format) []) in
  linux disk /\
  parse (lit "correct horse battery staple") "der"%string = Ok (KOct (lit "correct horse battery staple")) /\
  parse (lit "hunter2") "der"%string = Ok (KOct (lit "YWJj")) /\ parse (lit "hunter2") "pem"%string = Ok (KOct (lit "abc")) /\
  parse [1; 2; 0; 3] "der"%string = Err ValueError /\
  parse (lit "/") "der"%string = Ok (KOct (lit "/")) /\ parse [] "der"%string = Ok (KOct []) /\
  parse (repeat 65 255) "der"%string = Ok (KOct (repeat 65 255)) /\ parse (repeat 65 256) "der"%string = Err OSError /\
  key_parse ref disk (lit "-----BEGIN PUBLIC KEY-----" ++ repeat 65 300) (lit "RSA") true (lit "pem") [] = Err OSError /\
  key_parse ref disk [0] (lit "DSA") true (lit "pem") [] = Err UnsupportedAlgorithm.
Proof. split; [exact disk_linux|]. vm_compute. repeat split. Qed.

(** C135.  The first check that fails decides which exception is raised. *)
Theorem C135_jwk_errors : forall C v err, recover_raises C ->
  (decided (jwk_checks C v) None err <-> match JsonWebKey C v with Ok _ => err = None | Err x => err = Some x end).
Proof. exact c135. Qed.
Print Assumptions C135_jwk_errors.
(** A dict for every line of the table *)
Example C135_example : recover_raises ref /\
  let raised d := match JsonWebKey ref (PDict d) with Ok _ => None | Err e => Some e end in
  (raised [] = Some InvalidKey /\
   raised [(lit "kty", PList [])] = Some TypeError /\
   raised [L "kty" "OKP"] = Some UnsupportedAlgorithm /\
   raised [L "kty" "oct"] = Some TypeError /\
   raised [L "kty" "oct"; L "k" "AA"; L "self" ""] = Some TypeError /\
   raised [L "kty" "oct"; (lit "k", PDict [])] = Some TypeError /\
   raised [L "kty" "oct"; (lit "k", PStr [55296])] = Some UnicodeEncodeError /\
   raised [L "kty" "oct"; L "k" "A"] = Some BinasciiError /\
   raised [L "kty" "oct"; (lit "k", PInt (-123))] = None /\
   raised [L "kty" "oct"; (lit "k", PInt 12345)] = Some BinasciiError) /\
  (raised [L "kty" "RSA"; L "n" "DKE"] = Some TypeError /\
   raised [L "kty" "RSA"; (lit "n", PInt 3233); L "e" "EQ"] = Some TypeError /\
   raised [L "kty" "RSA"; L "n" "DKE"; (lit "e", PStr [233])] = Some UnicodeEncodeError /\
   raised [L "kty" "RSA"; L "n" "D"; (lit "e", PStr [233])] = Some BinasciiError /\
   raised [L "kty" "RSA"; L "n" ""; L "e" "E"] = Some ValueError /\
   raised [L "kty" "RSA"; (lit "n", PNone); L "e" "EQ"] = Some TypeError /\
   raised [L "kty" "RSA"; L "n" "DKE"; L "e" "EA"] = Some ValueError /\
   raised [L "kty" "RSA"; L "n" "DKE"; L "e" "EQ"; (lit "d", PBool false); (lit "p", PInt 1)] = None /\
   raised [L "kty" "RSA"; L "n" "DKE"; L "e" "EQ"; L "d" "CsE"; (lit "p", PInt 1)] = Some TypeError /\
   raised [L "kty" "RSA"; L "n" "DKE"; L "e" "EQ"; L "d" "CsE"; L "p" "PQ"] = Some ValueError /\
   raised [L "kty" "RSA"; L "n" "DKE"; L "e" "EQ"; L "d" "CsE"; L "p" "AQ"; L "q" "DKE"] = Some ZeroDivisionError /\
   raised [L "kty" "RSA"; L "n" "DKE"; L "e" "EQ"; L "d" "CsA"; L "p" "PQ"; L "q" "NQ"] = Some ValueError /\
   raised [L "kty" "RSA"; L "n" "DKE"; L "e" "EQ"; L "d" "CsE"; L "p" "PQ"; L "q" "NQ"] = None) /\
  (raised [L "kty" "EC"; L "crv" "P-256"; L "x" "AA"] = Some TypeError /\
   raised [L "kty" "EC"; (lit "crv", PDict []); L "x" "A"; L "y" "AA"] = Some TypeError /\
   raised [L "kty" "EC"; L "crv" "secp256k1"; L "x" "A"; L "y" "AA"] = Some InvalidKey /\
   raised [L "kty" "EC"; L "crv" "P-256"; L "x" "AA"; (lit "y", PNone)] = Some TypeError /\
   raised [L "kty" "EC"; L "crv" "P-256"; L "x" "AA"; L "y" "AA"] = Some ValueError /\
   raised [L "kty" "EC"; L "crv" "P-256"; (lit "x", num_str (fst (base_point P256))); (lit "y", num_str (snd (base_point P256))); L "d" "AA"] = Some ValueError /\
   raised [L "kty" "EC"; L "crv" "P-256"; (lit "x", num_str (fst (base_point P256))); (lit "y", num_str (snd (base_point P256))); L "d" "AQ"] = None).
Proof. split; [exact ref_recover|]. vm_compute. repeat split. Qed.

(** C136.  The first key that cannot be made, then the first check of the ids that fails, decides the exception. *)
Theorem C136_keyset_errors : forall C v err, recover_raises C -> (forall name w, v = PDict [(name, w)] -> Forall names_once (elements w)) ->
  (decided (keyset_checks C v) None err <-> match jwks_load C v with Ok _ => err = None | Err x => err = Some x end).
Proof. exact c136. Qed.
Print Assumptions C136_keyset_errors.
Theorem C136_dump_errors : forall ks pub,
  match jwks_dump ks pub with
  | Ok _ => pub = true \/ Forall (fun k => has_private (jmat k) = true) ks
  | Err e => e = RuntimeError /\ pub = false /\ exists k, In k ks /\ has_private (jmat k) = false
  end.
Proof. exact c136_dump. Qed.
Print Assumptions C136_dump_errors.
(** A value for every line of the table *)
Example C136_example :
  let raised v := match jwks_load ref v with Ok _ => None | Err e => Some e end in
  let set w := PDict [(lit "keys", w)] in
  let oct i := PDict [L "kty" "oct"; L "k" "AAAA"; (lit "kid", i)] in
  let rsa := PDict [L "kty" "RSA"; L "n" "DKE"; L "e" "EQ"; L "kid" "r"] in
  raised (PList [oct (PInt 1)]) = Some InvalidKeySet /\ raised (PDict [(lit "Keys", PList [])]) = Some InvalidKeySet /\
  raised (PDict [(lit "keys", PList [oct (PInt 1)]); L "a" "b"]) = Some InvalidKeySet /\
  raised (set (PInt 3)) = Some TypeError /\ raised (set PNone) = Some TypeError /\
  raised (set (PStr (lit "abc"))) = Some InvalidKey /\ raised (set (PStr [])) = Some InvalidKeySet /\
  raised (set (oct (PInt 1))) = Some InvalidKey /\
  raised (set (PList [])) = Some InvalidKeySet /\
  raised (set (PList [oct PNone; PDict [L "kty" "OKP"]])) = Some UnsupportedAlgorithm /\
  raised (set (PList [PDict [L "kty" "oct"; L "k" "A"]; PDict [L "kty" "OKP"]])) = Some BinasciiError /\
  raised (set (PList [oct (PList []); oct PNone])) = Some InvalidKeySet /\
  raised (set (PList [oct (PList []); oct (PInt 1)])) = Some TypeError /\
  raised (set (PList [oct (PInt 1); rsa; oct (PBool true)])) = Some InvalidKeySet /\
  raised (set (PList [oct (PStr []); rsa; oct (PBool true)])) = None /\
  (exists ks, jwks_load ref (set (PList [oct (PInt 1); rsa])) = Ok ks /\ jwks_dump ks false = Err RuntimeError /\ exists v, jwks_dump ks true = Ok v) /\
  (exists ks v, jwks_load ref (set (PList [oct (PInt 1)])) = Ok ks /\ jwks_dump ks false = Ok v) /\
  names_once (oct (PInt 1)).
Proof.
  cbv zeta. do 15 (split; [vm_compute; reflexivity|]). split; [|split].
  - eexists. split; [vm_compute; reflexivity|]. split; [vm_compute; reflexivity|]. eexists. vm_compute. reflexivity.
  - eexists _, _. split; [vm_compute; reflexivity|]. vm_compute. reflexivity.
  - intros d E. injection E as <-. cbn. repeat constructor; cbn; intuition discriminate.
Qed.
