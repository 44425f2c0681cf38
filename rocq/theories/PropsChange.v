(** Properties C165-C168: keys, headers, tokens and key sets that are changed after they were made, in terms of SpecKeySign.v,
    SpecJws.v, SpecKey.v and SpecChange.v. *)
From Coq Require Import String Ascii List NArith ZArith Bool.
From Verif Require Import Base SpecCodec Json Webtools Crypto RefCrypto Jwk SpecKey Jws SpecJws JwsRef Jwt SpecJwt SpecReaders SpecKeySign Change SpecChange ChangeFacts.
Import ListNotations.
Open Scope N_scope.

(** C165: whatever is done to the members of a key, it signs and verifies with the key it was made with. *)
Theorem C165_changed_key_verifies : forall C cs k token algv j, deserialize C token (Some (change_key cs k)) algv true = Ok j ->
  exists hs ps ss, segments token hs ps ss /\ url_octets ps (jpayload j) /\
    (lookup (lit "alg") (hdict (jheader j)) = Some (PStr (lit "none")) \/
     exists sig h kw, url_octets ss sig /\ verified C (hs ++ 46 :: ps) (jmat k) h kw sig).
Proof. exact c165_verifies. Qed.
Print Assumptions C165_changed_key_verifies.
Theorem C165_changed_key_signs : forall C rand cs k j token, serialize C rand j (Some (change_key cs k)) = Ok token -> halg (jheader j) <> Anone ->
  exists message ss sig h kw, token = message ++ 46 :: ss /\ signature_of C rand message (jmat k) h kw sig /\ (bytes_ok sig -> ss = rfc4648_url sig).
Proof. exact c165_signs. Qed.
Print Assumptions C165_changed_key_signs.
Theorem C165_changed_key_dump : forall cs k pub out, jwk_dump k pub = Ok out ->
  exists out', jwk_dump (change_key cs k) pub = Ok out' /\ forall a, In a (own_members (jmat k)) -> lookup a out' = lookup a out.
Proof. exact c165_dump. Qed.
Print Assumptions C165_changed_key_dump.
(** ... and its members are those of the last changes; assigning None changes nothing, updating with it does. *)
Theorem C165_changed_members : forall cs k n v, member_after true (jdata k) n cs v -> lookup n (jdata (change_key cs k)) = v.
Proof. exact c165_members. Qed.
Print Assumptions C165_changed_members.
Example C165_members_example :
  let cs := [Update [(lit "use", PNone); (lit "alg", PStr (lit "ES256"))]; Assign (lit "kid") (PStr (lit "a"))] ++ [Assign (lit "kid") PNone] in
  member_after true (jdata ec_key) (lit "kid") cs (Some (PStr (lit "a"))) /\ lookup (lit "kid") (jdata (change_key cs ec_key)) = Some (PStr (lit "a")) /\ lookup (lit "use") (jdata (change_key cs ec_key)) = Some PNone.
Proof.
  cbv zeta. split; [|split; vm_compute; reflexivity]. apply ma_other; [intros [_ H]; apply H; split; reflexivity|].
  apply (ma_assign true _ _ [Update [(lit "use", PNone); (lit "alg", PStr (lit "ES256"))]]). intros [_ H]. discriminate.
Qed.
(** An EC key that is given the members of a symmetric one: the public key does not become a secret. *)
Example C165_example :
  let cs := [Update (oct_dict [(lit "d", PStr (lit "AQ"))]); Assign (lit "kid") (PStr (lit "a")); Assign (lit "alg") PNone; Delete (lit "crv")] in
  dget (lit "kty") (jdata (change_key cs ec_key)) = PStr (lit "oct") /\ has (lit "alg") (jdata (change_key cs ec_key)) = false /\
  deserialize ref hs_token (Some (change_key cs ec_key)) PNone true = Err InvalidSignature /\
  deserialize ref hs_token (Some (change_key [Assign (lit "k") (PStr [])] (oct_key []))) PNone true = Ok hs_jws /\
  serialize ref [] hs_jws (Some (change_key [Assign (lit "k") (PStr []); Assign (lit "kid") (PInt 1)] (oct_key []))) = Ok hs_token /\
  rmap (fun d => (lookup (lit "kty") d, lookup (lit "d") d, lookup (lit "kid") d)) (jwk_dump (change_key cs ec_key) true) =
    Ok (Some (PStr (lit "EC")), None, Some (PStr (lit "a"))).
Proof. cbv zeta. do 5 (split; [vm_compute; reflexivity|]). vm_compute. reflexivity. Qed.

(** C166 is refuted: the claims are written when the object is made; whatever is done to them after that, the token has the
    first ones. *)
Theorem C166_changed_claims_refuted : forall C rand now claims d k k' t s cs now1 now2 algv,
  json_wf (PDict claims) = true -> json_wf (PDict d) = true -> without_none claims <> [] ->
  constructible C k -> constructible C k' -> verifying_key k k' -> backend_correct C (jmat k) ->
  JsonWebToken now (PDict claims) (PDict d) = Ok t -> jwt_encode C rand (change_claims cs t) (Some k) = Ok s ->
  (~ false_value algv -> algv = dget (lit "alg") d) ->
  (now <= now1)%Z -> (now <= now2)%Z ->
  (forall z, lookup (lit "exp") claims = Some (PInt z) -> z = 0%Z \/ (now1 < z)%Z /\ (now2 < z)%Z) ->
  exists t', jwt_decode_str C now1 now2 s (Some k') algv true PNone = Ok t' /\ tclaims t' = without_none claims.
Proof. exact c166. Qed.
Print Assumptions C166_changed_claims_refuted.
Example C166_example :
  let t := JsonWebToken 0 (PDict [(lit "sub", PStr (lit "a"))]) (PDict [(lit "alg", PStr (lit "HS256"))]) in
  let cs := [Assign (lit "sub") (PStr (lit "b")); Update [(lit "exp", PInt 9)]] in
  rmap (fun t => tclaims (change_claims cs t)) t = Ok [(lit "sub", PStr (lit "b")); (lit "exp", PInt 9)] /\
  rmap tclaims (let! t := t in let! s := jwt_encode ref [] (change_claims cs t) (Some (oct_key [])) in
                jwt_decode_str ref 0 0 s (Some (oct_key [])) PNone true PNone) = Ok [(lit "sub", PStr (lit "a"))].
Proof. cbv zeta. split; vm_compute; reflexivity. Qed.

(** ... although the object has the members of the last changes. *)
Theorem C166_changed_members : forall cs t n v, member_after false (tclaims t) n cs v -> lookup n (tclaims (change_claims cs t)) = v.
Proof. exact c166_members. Qed.
Print Assumptions C166_changed_members.

(** C167 is refuted: the algorithm is that of the header as it was made.  A header made with "none" whose "alg" is assigned gives
    an unsigned token that names the algorithm, also with a key that demands it. *)
Theorem C167_changed_header_refuted : forall C rand payload k name,
  In name signing_names -> bytes_ok payload ->
  (dget (lit "alg") (jdata k) = PNone \/ dget (lit "alg") (jdata k) = PStr name) ->
  dget (lit "use") (jdata k) = PNone -> dget (lit "key_ops") (jdata k) = PNone ->
  JsonWebSignatureHeader (PDict [(lit "alg", PStr (lit "none"))]) = Ok none_made /\
  exists hs ps hb, url_octets hs hb /\ json_object hb [(lit "alg", PStr name)] /\ url_octets ps payload /\
    serialize C rand {| jheader := change_header [Assign (lit "alg") (PStr name)] none_made; jpayload := payload |} (Some k) = Ok (hs ++ 46 :: ps ++ [46]).
Proof. exact c167. Qed.
Print Assumptions C167_changed_header_refuted.
Example C167_example : In (lit "HS256") signing_names /\ bytes_ok (lit "msg") /\
  dget (lit "alg") (jdata (oct_key [(lit "alg", PStr (lit "HS256"))])) = PStr (lit "HS256") /\
  serialize ref [] {| jheader := change_header [Assign (lit "alg") (PStr (lit "HS256"))] none_made; jpayload := lit "msg" |}
    (Some (oct_key [(lit "alg", PStr (lit "HS256"))])) = Ok (lit "eyJhbGciOiAiSFMyNTYifQ.bXNn.").
Proof. split; [left; reflexivity|]. split; [repeat constructor|]. split; vm_compute; reflexivity. Qed.
Theorem C167_changed_members : forall cs h n v, member_after false (hdict h) n cs v -> lookup n (hdict (change_header cs h)) = v.
Proof. exact c167_members. Qed.
Print Assumptions C167_changed_members.
Example C166_C167_members_example : let cs := [Assign (lit "alg") PNone] ++ [Update [(lit "alg", PStr (lit "HS256"))]] in
  member_after false (hdict none_made) (lit "alg") cs (Some (PStr (lit "HS256"))) /\ lookup (lit "alg") (hdict (change_header cs none_made)) = Some (PStr (lit "HS256")) /\ lookup (lit "alg") (hdict (change_header [Assign (lit "alg") PNone] none_made)) = Some PNone.
Proof.
  cbv zeta. split; [|split; vm_compute; reflexivity]. apply (ma_update false _ _ [Assign (lit "alg") PNone]); [left; reflexivity|]. intros u [H|[]].
  injection H as <-. reflexivity.
Qed.
(** What holds: a changed header that would be a header of the same algorithm, and has no None, gives a token that has it. *)
Theorem C167_changed_header_partial : forall C rand h h' cs payload k k' token algv,
  json_wf (PDict (hdict (change_header cs h))) = true -> (forall n v, In (n, v) (hdict (change_header cs h)) -> v <> PNone) ->
  bytes_ok payload -> constructible C k -> constructible C k' -> verifying_key k k' -> backend_correct C (jmat k) ->
  JsonWebSignatureHeader (PDict (hdict (change_header cs h))) = Ok h' -> halg h' = halg h ->
  serialize C rand {| jheader := change_header cs h; jpayload := payload |} (Some k) = Ok token ->
  (~ false_value algv -> algv = dget (lit "alg") (hdict (change_header cs h))) ->
  deserialize C token (Some k') algv true = Ok {| jheader := change_header cs h; jpayload := payload |}.
Proof. exact c167_partial. Qed.
Print Assumptions C167_changed_header_partial.
Example C167_partial_example :
  let h := change_header [Assign (lit "typ") (PStr (lit "JWT")); Update [(lit "x", PInt 1)]; Delete (lit "x")] hs_header in
  JsonWebSignatureHeader (PDict (hdict h)) = Ok h /\
  rmap (fun j => hdict (jheader j)) (let! s := serialize ref [] {| jheader := h; jpayload := lit "msg" |} (Some (oct_key [])) in
    deserialize ref s (Some (oct_key [])) (PStr (lit "HS256")) true) = Ok [(lit "alg", PStr (lit "HS256")); (lit "typ", PStr (lit "JWT"))].
Proof. cbv zeta. split; vm_compute; reflexivity. Qed.

(** C168 is refuted: once a key without id is appended to [keys], looking for an id that the set does not have raises KeyError;
    a second key with the same id is appended without an error and never found. *)
Theorem C168_changed_set_refuted : forall keys ks k id, JsonWebKeySet keys = Ok ks -> lookup (lit "kid") (jdata k) = None ->
  (forall x, In x ks -> kid x <> PStr id) -> get_key_any (ks ++ [k]) (PStr id) = Err KeyError.
Proof. exact c168_no_id. Qed.
Print Assumptions C168_changed_set_refuted.
Theorem C168_same_id_refuted : forall keys ks x k id, JsonWebKeySet keys = Ok ks -> In x ks -> kid x = PStr id -> kid k = PStr id ->
  get_key_any (ks ++ [k]) (PStr id) = Ok (Some x) /\ JsonWebKeySet (map Some (ks ++ [k])) = Err InvalidKeySet.
Proof. exact c168_same_id. Qed.
Print Assumptions C168_same_id_refuted.
(** What holds: without changes [get_key] raises nothing, and a key of the set is found whatever is appended. *)
Theorem C168_changed_set_partial : forall keys ks l id, JsonWebKeySet keys = Ok ks ->
  get_key_any ks (PStr id) = Ok (jwks_get_key ks (PStr id)) /\
  (forall x, In x ks -> kid x = PStr id -> get_key_any (ks ++ l) (PStr id) = Ok (Some x)).
Proof. exact c168_partial. Qed.
Print Assumptions C168_changed_set_partial.
Example C168_example :
  let a := oct_key [(lit "kid", PStr (lit "a"))] in
  JsonWebKeySet [Some a] = Ok [a] /\ get_key_any [a] (PStr (lit "b")) = Ok None /\
  get_key_any [a; oct_key []] (PStr (lit "b")) = Err KeyError /\ get_key_any [a; oct_key []] (PStr (lit "a")) = Ok (Some a).
Proof. cbv zeta. do 3 (split; [vm_compute; reflexivity|]). vm_compute. reflexivity. Qed.
