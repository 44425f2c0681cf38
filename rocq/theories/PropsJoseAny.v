(** Properties C162-C164: jws.py and jwt.py on tokens and payloads of every type, in terms of SpecAny.v and SpecJws.v. *)
From Coq Require Import String Ascii List NArith ZArith Bool.
From Verif Require Import Base SpecCodec SpecPy SpecReaders Json Webtools WebAny SpecAny Crypto RefCrypto Jwk SpecKey Jws SpecJws JwsFacts JwsRef Jwt JwtFacts JoseAny JoseAnyFacts.
Import ListNotations.
Open Scope N_scope.

(** C162.  [float_text] is what [str] makes of a float: ASCII, with one full stop at most. *)
Theorem C162_str_or_bytes : forall C float_text now1 now2 key algv validate options,
  (forall b, jwt_decode_any C float_text now1 now2 (ABytes b) key algv validate options = jwt_decode C now1 now2 b key algv validate options) /\
  (forall s b, rfc3629_str s = Some b ->
     jwt_decode_any C float_text now1 now2 (AVal (PStr s)) key algv validate options = jwt_decode C now1 now2 b key algv validate options).
Proof. exact c162_same. Qed.
Print Assumptions C162_str_or_bytes.
Theorem C162_nothing_else : forall C float_text now1 now2 key algv validate options token t,
  (forall l, Forall (fun c => c < 128) (float_text l) /\ (count_occ N.eq_dec (float_text l) 46%N <= 1)%nat) ->
  jwt_decode_any C float_text now1 now2 token key algv validate options = Ok t ->
  exists b h p s, (token = ABytes b \/ exists text, token = AVal (PStr text) /\ rfc3629_str text = Some b) /\ segments b h p s.
Proof. exact c162_accepted. Qed.
Print Assumptions C162_nothing_else.
Theorem C162_deserialize : forall C key algv validate token j, deserialize_any C token key algv validate = Ok j ->
  exists b h p s, token = ABytes b /\ segments b h p s /\ deserialize C b key algv validate = Ok j.
Proof. exact c162_deserialized. Qed.
Print Assumptions C162_deserialize.
Example C162_example :
  deserialize_any ref (ABytes hs_token) (Some (oct_key [])) PNone true = Ok hs_jws /\
  (let s := rbind (JsonWebToken 1000 (PDict [(lit "sub", PStr (lit "1")); (lit "exp", PInt 2000)]) (PDict [(lit "alg", PStr (lit "HS256"))])) (fun t => jwt_encode ref [] t (Some (oct_key []))) in
   rbind s (fun s => jwt_decode_any ref (fun s => s) 1998 1999 (AVal (PStr s)) (Some (oct_key [])) (PStr (lit "HS256")) true PNone) =
   JsonWebToken 1000 (PDict [(lit "sub", PStr (lit "1")); (lit "exp", PInt 2000)]) (PDict [(lit "alg", PStr (lit "HS256"))])).
Proof. vm. Qed.

(** C163, refuted: whatever is given as a token, it is refused with an error of the library. *)
Theorem C163_token_errors_refuted : forall C float_text now1 now2 key algv validate options,
  (forall token, collection token -> jwt_decode_any C float_text now1 now2 token key algv validate options = Err TypeError) /\
  (forall s, rfc3629_str s = None ->
     jwt_decode_any C float_text now1 now2 (AVal (PStr s)) key algv validate options = Err UnicodeEncodeError) /\
  (forall s, deserialize_any C (AVal (PStr s)) key algv validate = Err TypeError).
Proof. exact c163_refuted. Qed.
Print Assumptions C163_token_errors_refuted.
(** What is true: the others are refused as they should be. *)
Theorem C163_token_errors_partial : forall C float_text now1 now2 key algv validate options token,
  (forall l, Forall (fun c => c < 128) (float_text l) /\ (count_occ N.eq_dec (float_text l) 46%N <= 1)%nat) ->
  (number token \/ token = AVal PNone ->
     jwt_decode_any C float_text now1 now2 token key algv validate options = Err InvalidJWSSerialization) /\
  (number token \/ collection token \/ token = AVal PNone -> deserialize_any C token key algv validate = Err InvalidJWSSerialization).
Proof. exact c163_partial. Qed.
Print Assumptions C163_token_errors_partial.
Example C163_example : collection (AVal (PList [])) /\ rfc3629_str [55296] = None /\ number (AVal (PInt 5)) /\ number (AVal (PFloat (lit "1.5"))).
Proof. split; [constructor|split; [reflexivity|split; [eapply nu_whole, wh_int|apply nu_float]]]. Qed.

(** C164.  Under the hypotheses of C23, for a payload of any type. *)
Theorem C164_payload_of_any_type : forall C float_text rand d h payload k k' token algv,
  json_wf (PDict d) = true -> (forall b, payload = ABytes b -> bytes_ok b) -> constructible C k -> constructible C k' -> verifying_key k k' ->
  backend_correct C (jmat k) ->
  JsonWebSignatureHeader (PDict d) = Ok h ->
  serialize_any C float_text rand h payload (Some k) = Ok token ->
  (~ false_value algv -> algv = dget (lit "alg") d) ->
  exists b, bytes_for float_text payload (Ok (Some b)) /\
    deserialize_any C (ABytes token) (Some k') algv true = Ok {| jheader := h; jpayload := b |}.
Proof. exact c164. Qed.
Print Assumptions C164_payload_of_any_type.
Theorem C164_same_token : forall C float_text rand h payload b key, bytes_for float_text payload (Ok (Some b)) ->
  serialize_any C float_text rand h payload key = serialize C rand {| jheader := h; jpayload := b |} key.
Proof. exact c164_same. Qed.
Print Assumptions C164_same_token.
Example C164_example : let ft := fun s => s in
  serialize_any ref ft [] hs_header (AVal (PStr (lit "Super important message."))) (Some (oct_key [])) = Ok hs_token /\
  (let t := serialize_any ref ft [] hs_header (AVal (PInt 42)) (Some (oct_key [])) in
   rbind t (fun t => rbind (deserialize_any ref (ABytes t) (Some (oct_key [])) PNone true) (fun j => Ok (jpayload j))) = Ok (lit "42")) /\
  serialize_any ref ft [] hs_header (AVal PNone) (Some (oct_key [])) = Err TypeError /\
  serialize_any ref ft [] hs_header (AVal (PStr [55296])) (Some (oct_key [])) = Err UnicodeEncodeError /\
  serialize_any ref ft [] hs_header (AVal (PDict [])) (Some (oct_key [])) = Err TypeError.
Proof. cbv zeta. do 4 (split; [vm_compute; reflexivity|]). vm_compute; reflexivity. Qed.
