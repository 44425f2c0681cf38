(** Properties C147 and C148: signing and verifying with a key directly, in terms of SpecKeySign.v. *)
From Coq Require Import String Ascii List NArith ZArith Bool.
From Verif Require Import Base SpecCodec Crypto RefCrypto Jwk SpecKey Jws SpecJws JwsRef SpecReaders SpecJoseErr TokenWriteWit JwkSign SpecKeySign KeySignFacts.
Import ListNotations.
Open Scope N_scope.

(** C147.  What is returned, and which exception is raised otherwise *)
Theorem C147_signature : forall C rand k data a kw sig,
  key_sign C rand k data a kw = Ok sig <-> exists h, names_hash a h /\ signature_of C rand data (jmat k) h kw sig.
Proof. exact c147_signature. Qed.
Print Assumptions C147_signature.
Theorem C147_sign_errors : forall C rand k data a kw e, signs_by_size C (jmat k) ->
  (decided (sign_checks (jmat k) a kw) None e <-> match key_sign C rand k data a kw with Ok _ => e = None | Err x => e = Some x end).
Proof. exact c147_errors. Qed.
Print Assumptions C147_sign_errors.
Example C147_premise : exists k, signer = Some k /\ constructible sized k /\ signs_by_size sized (jmat k).
Proof. exact signer_good. Qed.
(** A call for every line of the table *)
Example C147_example :
  let named x := Given (PStr (lit x)) in
  let pad v := [(lit "rsa_padding", v)] in
  let signed k a kw := match k with Some k => match key_sign sized [] k (lit "msg") a kw with Ok _ => None | Err e => Some e end | None => Some OutOfFuel end in
  let oct := Some (oct_key []) in
  (signed oct (named "SHA1") (pad (PStr (lit "PSS"))) = Some TypeError /\ signed signer (Member SHA256) [] = Some TypeError /\ signed signer (Member SHA256) [(lit "padding", PStr (lit "PSS"))] = Some TypeError /\
   signed (Some ec_key) (named "SHA1") [] = Some InvalidKey /\ signed (Some small_rsa) (Given PNone) (pad PNone) = Some InvalidKey /\
   signed oct (Given (PInt 256)) [] = Some AttributeError /\ signed signer (Given PNone) (pad (PStr (lit "OAEP"))) = Some AttributeError /\
   signed oct (named "sha256") [] = Some KeyError /\ signed signer (named "HS256") (pad PNone) = Some KeyError /\
   signed signer (named "SHA512") (pad (PStr (lit "OAEP"))) = Some InvalidKey /\ signed signer (Member SHA256) (pad PNone) = Some InvalidKey /\
   signed signer (named "SHA384") (pad (PStr (lit "PKCS1v15"))) = Some ValueError /\ signed signer (named "SHA512") (pad (PStr (lit "PSS"))) = Some ValueError /\
   signed signer (named "SHA256") (pad (PStr (lit "PKCS1v15"))) = None /\ signed signer (Member SHA384) (pad (PStr (lit "PSS"))) = None /\
   signed oct (named "SHA384") [] = None /\ signed (Some ec_private) (Member SHA512) [] = None)%string.
Proof. vm_compute. repeat split. Qed.

(** C148 *)
Theorem C148_verified : forall C k sig data a kw,
  key_verify C k sig data a kw = Ok tt <-> exists h, names_hash a h /\ verified C data (jmat k) h kw sig.
Proof. exact c148_accepts. Qed.
Print Assumptions C148_verified.
Theorem C148_verify_errors : forall C k sig data a kw e,
  decided (verify_checks C (jmat k) sig data a kw) None e <-> match key_verify C k sig data a kw with Ok _ => e = None | Err x => e = Some x end.
Proof. exact c148_errors. Qed.
Print Assumptions C148_verify_errors.
(** [k'] is the key or has its public part. *)
Theorem C148_roundtrip : forall C rand k k' data a kw sig, jmat k' = jmat k \/ jmat k' = public_part (jmat k) -> backend_correct C (jmat k) ->
  key_sign C rand k data a kw = Ok sig -> key_verify C k' sig data a kw = Ok tt.
Proof. exact c148_roundtrip. Qed.
Print Assumptions C148_roundtrip.
(** Signed with the private key under the name of the hash, verified with the public one; and the errors *)
Example C148_example :
  let named x := Given (PStr (lit x)) in
  let pad v := [(lit "rsa_padding", v)] in
  let fails k sig a kw := match key_verify ref k sig (lit "msg") a kw with Ok _ => None | Err e => Some e end in
  let other sig := match sig with x :: r => (255 - x) :: r | [] => [0] end in
  let mac := c_hmac ref SHA256 (lit "secret") (lit "msg") in
  (jmat ec_key = public_part (jmat ec_private) /\ backend_correct ref (jmat ec_private) /\
   exists sig, key_sign ref [] ec_private (lit "msg") (named "SHA512") [] = Ok sig /\
     fails ec_key sig (named "SHA512") [] = None /\ fails ec_private sig (Member SHA512) [] = None /\ fails ec_key (other sig) (Member SHA512) [] = Some InvalidSignature /\
     fails (oct_key []) mac (Member SHA384) [] = Some InvalidSignature /\
     fails ec_key sig (Member SHA512) (pad (PStr (lit "PSS"))) = Some TypeError /\ fails small_rsa sig (Member SHA512) [] = Some TypeError /\
     fails ec_key sig (Given PNone) [] = Some AttributeError /\ fails small_rsa sig (named "ES512") (pad PNone) = Some KeyError /\
     fails small_rsa sig (named "SHA512") (pad (PStr (lit "pss"))) = Some InvalidKey /\ fails small_rsa sig (named "SHA512") (pad (PStr (lit "PSS"))) = Some ValueError /\
     fails small_rsa sig (named "SHA512") (pad (PStr (lit "PKCS1v15"))) = Some InvalidSignature)%string.
Proof.
  cbv zeta. split; [reflexivity|]. split; [exact ref_ec|]. eexists. split; [vm_compute; reflexivity|]. vm_compute. repeat split.
Qed.
