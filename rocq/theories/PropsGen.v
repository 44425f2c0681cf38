(** Properties C137, C138 and C142: generated keys and keys from files. *)
From Coq Require Import String Ascii List NArith ZArith Bool.
From Verif Require Import Base SpecCodec Crypto RefCrypto Jwk JwkGen SpecKey SpecReaders SpecJwkErr SpecJwkGen JwkGenFacts JwkGenWit JwkFile SpecJwkParse JwkParseFacts JwkParseWit.
Import ListNotations.
Open Scope N_scope.

(** C137 *)
Theorem C137_generate : forall C G, sound C G -> forall algorithm option params, extra params ->
  (forall m, (exists k, key_generate C G algorithm option params = Ok k /\ jmat k = m) <-> exists a, asks algorithm option a /\ answers G a m) /\
  (forall k x, key_generate C G algorithm option params = Ok k -> ~ In x key_names -> dget x (jdata k) = dget x params) /\
  (forall err, decided (generate_checks G algorithm option) None err <->
     match key_generate C G algorithm option params with Ok _ => err = None | Err x => err = Some x end).
Proof. exact c137. Qed.
Print Assumptions C137_generate.
Theorem C137_length : forall C G, sound C G -> forall option params k, extra params -> key_generate C G (chars "oct") option params = Ok k ->
  exists s, jmat k = KOct s /\ (32 <= List.length s)%nat /\ forall z, option = PInt z -> z <> 0%Z -> Z.of_nat (List.length s) = z.
Proof. exact c137_length. Qed.
Print Assumptions C137_length.
(** A call for every line of the table *)
Example C137_example : sound ref dice /\ extra [(lit "kid", PStr (lit "a")); (lit "use", PNone)] /\
  (let made alg option := rmap jmat (key_generate ref dice (lit alg) option [(lit "kid", PStr (lit "a")); (lit "use", PNone)]) in
   made "DSA" (PInt 64) = Err UnsupportedAlgorithm /\ made "OCT" (PInt 64) = Err UnsupportedAlgorithm /\
   made "oct" PNone = Ok (KOct (repeat 7 32)) /\ made "oct" (PInt 0) = Ok (KOct (repeat 7 32)) /\ made "oct" (PInt 33) = Ok (KOct (repeat 7 33)) /\
   made "oct" (PInt 31) = Err InvalidKey /\ made "oct" (PInt (-1)) = Err InvalidKey /\ made "oct" (PBool true) = Err InvalidKey /\
   made "oct" (PStr (lit "64")) = Err TypeError /\ made "oct" (PList [PInt 64]) = Err TypeError /\
   made "RSA" (PInt 511) = Err InvalidKey /\ made "RSA" (PInt 512) = Ok (KRSA 67591 65537 (Some toy_priv)) /\
   made "RSA" (PBool false) = Ok (KRSA 67591 65537 (Some toy_priv)) /\ made "RSA" (PInt 1000) = Err ValueError /\ made "RSA" (PDict [L "a" "b"]) = Err TypeError /\
   made "EC" PNone = Err TypeError /\ made "EC" (PStr []) = Err TypeError /\ made "EC" (PList [PNone]) = Err TypeError /\
   made "EC" (PInt 256) = Err InvalidKey /\ made "EC" (PStr (lit "P-257")) = Err InvalidKey /\
   made "EC" (PStr (lit "P-521")) = Ok (KEC P521 (fst (base_point P521)) (snd (base_point P521)) (Some 1)))%string /\
  rmap jdata (key_generate ref dice (lit "oct") PNone [(lit "kid", PStr (lit "a")); (lit "use", PNone)]) =
    Ok [L "kty" "oct"; L "k" "BwcHBwcHBwcHBwcHBwcHBwcHBwcHBwcHBwcHBwcHBwc"; L "kid" "a"].
Proof.
  split; [exact dice_sound|]. split.
  - split; [repeat constructor; cbn; intuition discriminate|]. intros a [<-|[<-|[]]]; vm_compute; intuition discriminate.
  - vm_compute. repeat split.
Qed.

(** C138 is refuted: the parameter k replaces the secret, however long the one asked for. *)
Theorem C138_replaced_refuted : forall C G, sound C G ->
  exists params k, key_generate C G (chars "oct") (PInt 64) params = Ok k /\ jmat k = KOct (chars "weak").
Proof. exact c138. Qed.
Print Assumptions C138_replaced_refuted.
(** The same for every kind of key, and for keys that are read: whatever comes out without parameters, with some it is another key. *)
Theorem C138_generated_refuted : forall C G algorithm option k0, key_generate C G algorithm option [] = Ok k0 ->
  exists params k, key_generate C G algorithm option params = Ok k /\ jmat k = KOct (chars "weak").
Proof. exact c138_generate. Qed.
Print Assumptions C138_generated_refuted.
Theorem C138_parsed_refuted : forall C F path algorithm public format k0, key_parse C F path algorithm public format [] = Ok k0 ->
  exists options k, key_parse C F path algorithm public format options = Ok k /\ jmat k = KOct (chars "weak").
Proof. exact c138_parse. Qed.
Print Assumptions C138_parsed_refuted.
Example C138_example :
  rmap jmat (key_parse shelf drawer (lit "key.pem") (lit "EC") false (lit "pem") []) = Ok (KEC P256 (fst (base_point P256)) (snd (base_point P256)) (Some 1)) /\
  rmap jmat (key_parse shelf drawer (lit "key.pem") (lit "EC") false (lit "pem") [(lit "kty", PStr (lit "oct")); (lit "k", PStr (lit "d2Vhaw"))]) = Ok (KOct (lit "weak")).
Proof. vm_compute. split; reflexivity. Qed.

(** C142.  [raw]: the content of the file, or the argument itself if there is no such file *)
Theorem C142_parse : forall C, pem_sound C -> forall F path raw algorithm public format options, found F path raw -> bytes_ok raw -> extra options ->
  (forall m', (exists k, key_parse C F path algorithm public format options = Ok k /\ jmat k = m') <->
     exists m, reads C raw algorithm format m /\ if public then m' = public_part m else m' = m /\ has_private m = true) /\
  (forall k x, key_parse C F path algorithm public format options = Ok k -> ~ In x key_names -> dget x (jdata k) = dget x options) /\
  (forall err, decided (parse_checks C raw algorithm public format) None err <->
     match key_parse C F path algorithm public format options with Ok _ => err = None | Err x => err = Some x end).
Proof. exact c142. Qed.
Print Assumptions C142_parse.
(** A file that cannot be read *)
Theorem C142_unread : forall C F path algorithm public format options e, F path = OpenRaises e -> In algorithm [chars "oct"; chars "RSA"; chars "EC"] ->
  key_parse C F path algorithm public format options = Err e.
Proof. exact c142_unread. Qed.
Print Assumptions C142_unread.
(** A call for every line of the table *)
Example C142_example : pem_sound shelf /\ found drawer (lit "key.pem") (lit "PRIVATE EC") /\ found drawer (lit "PUBLIC RSA") (lit "PUBLIC RSA") /\
  (let g := base_point P256 in
   let read path alg public format := rmap jmat (key_parse shelf drawer (lit path) (lit alg) public (lit format) [L "kid" "a"]) in
   read "key.pem" "EC" false "pem" = Ok (KEC P256 (fst g) (snd g) (Some 1)) /\ read "key.pem" "EC" true "pem" = Ok (KEC P256 (fst g) (snd g) None) /\
   read "PRIVATE RSA" "RSA" false "pem" = Ok (KRSA 67591 65537 (Some toy_priv)) /\ read "PUBLIC RSA" "RSA" true "pem" = Ok (KRSA 67591 65537 None) /\
   read "YWJj" "oct" false "pem" = Ok (KOct (lit "abc")) /\ read "YWJj" "oct" true "der" = Ok (KOct (lit "YWJj")) /\
   read "key.pem" "DSA" false "pem" = Err UnsupportedAlgorithm /\ read "key.pem" "EC" false "der" = Err UnsupportedParsingMethod /\
   read "YWJj" "oct" false "raw" = Err UnsupportedParsingMethod /\ read "ssh-rsa YWJj" "oct" false "pem" = Err InvalidKey /\ read "YWJjA" "oct" false "pem" = Err BinasciiError /\
   read "EC" "EC" false "pem" = Err InvalidKey /\ read "PRIVATE locked" "EC" false "pem" = Err TypeError /\ read "PUBLIC" "RSA" true "pem" = Err ValueError /\
   read "PRIVATE PUBLIC EC" "EC" true "pem" = Err ValueError /\
   read "PRIVATE RSA" "EC" false "pem" = Err InvalidKey /\ read "PUBLIC EC" "RSA" true "pem" = Err InvalidKey /\ read "PRIVATE brainpool" "EC" false "pem" = Err InvalidKey /\
   read "PRIVATE DSA" "RSA" false "pem" = Err InvalidKey /\ read "PUBLIC RSA" "RSA" false "pem" = Err RuntimeError /\ read "secret" "oct" false "der" = Err OSError)%string.
Proof.
  split; [exact shelf_sound|]. split; [constructor; reflexivity|]. split; [apply found_none; left; reflexivity|]. vm_compute. repeat split.
Qed.
