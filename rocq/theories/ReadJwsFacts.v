(** The acceptance theorems of jws.py and jwt.py in terms of the texts of SpecReaders.v. *)
From Coq Require Import String Ascii List NArith ZArith Bool.
From Verif Require Import Base BaseFacts SpecPy PyFacts SpecCodec Utf8 Utf8Facts Base64 Base64Facts Json JsonFacts Url Webtools WebtoolsFacts Crypto Jwk SpecKey Jws SpecJws JwsFacts RefCrypto JwsRef
  Jwt SpecJwt JwtFacts SpecReaders ReaderFacts ReadB64Facts HeaderFacts.
Import ListNotations.
Open Scope N_scope.

Lemma url_octets_iff t b : base64url_decode t = Ok b <-> url_octets t b.
Proof. apply base64url_decode_iff. Qed.
Lemma json_object_iff b d : (exists s, rfc3629_str s = Some b /\ loads s = Ok (PDict d)) <-> json_object b d.
Proof. unfold json_object, json_utf8. split; intros (s & H1 & H2); exists s; split; auto; apply loads_iff; auto. Qed.
Lemma json_object_loads b s d : rfc3629_str s = Some b -> loads s = Ok (PDict d) -> json_object b d.
Proof. intros H1 H2. apply json_object_iff. eauto. Qed.
Lemma url_octets_fun t b b' : url_octets t b -> url_octets t b' -> b = b'.
Proof. intros H1 H2. apply url_octets_iff in H1, H2. congruence. Qed.
Lemma url_octets_bytes t b : url_octets t b -> bytes_ok b.
Proof. intros H. apply url_octets_iff in H. eapply base64url_decode_bytes_ok; eauto. Qed.

Lemma r_jws_iff C token k algv j : constructible C k ->
  (deserialize C token (Some k) algv true = Ok j <->
   exists hs ps ss hb d name,
     segments token hs ps ss /\
     url_octets hs hb /\ json_object hb d /\
     header_valid d /\ lookup (lit "alg") d = Some (PStr name) /\
     hdict (jheader j) = without_none d /\ alg_name (halg (jheader j)) = name /\
     url_octets ps (jpayload j) /\
     (~ false_value algv -> algv = PStr name) /\
     key_permits k d /\
     (name = lit "none" \/
      exists sig, url_octets ss sig /\ accepts C (jmat k) name sig (hs ++ 46 :: ps))).
Proof.
  intros Hk. rewrite (p_jws_iff C token k algv j Hk). split.
  - intros (hs & ps & ss & hb & s & d & nm & H1 & H2 & H3 & H4 & H5 & H6 & H7 & H8 & H9 & H10 & P & S).
    exists hs, ps, ss, hb, d, nm. apply url_octets_iff in H2. apply url_octets_iff in H9. pose proof (json_object_loads _ _ _ H3 H4).
    do 10 (split; [solve [auto]|]). destruct S as [S|(sig & S & A)]; [left; exact S|]. right. exists sig. split; [apply url_octets_iff; exact S|exact A].
  - intros (hs & ps & ss & hb & d & nm & H1 & H2 & H3 & H5 & H6 & H7 & H8 & H9 & H10 & P & S).
    apply json_object_iff in H3 as (s & H3 & H4). apply url_octets_iff in H2. apply url_octets_iff in H9.
    exists hs, ps, ss, hb, s, d, nm. do 11 (split; [solve [auto]|]). destruct S as [S|(sig & S & A)]; [left; exact S|]. right. exists sig. split; [apply url_octets_iff; exact S|exact A].
Qed.
Lemma r_pinned C token k name j : constructible C k -> name <> [] -> name <> lit "none" ->
  deserialize C token (Some k) (PStr name) true = Ok j ->
  exists hs ps ss hb d sig, segments token hs ps ss /\
    url_octets ss sig /\ accepts C (jmat k) name sig (hs ++ 46 :: ps) /\
    url_octets hs hb /\ json_object hb d /\
    lookup (lit "alg") d = Some (PStr name) /\ hdict (jheader j) = without_none d /\
    url_octets ps (jpayload j).
Proof.
  intros Hk H1 H2 H. destruct (p_pinned _ _ _ _ _ Hk H1 H2 H) as (hs & ps & ss & hb & s & d & sig & A1 & A2 & A3 & A4 & A5 & A6 & A7 & A8 & A9).
  exists hs, ps, ss, hb, d, sig. apply url_octets_iff in A2, A4, A9. pose proof (json_object_loads _ _ _ A5 A6). auto 10.
Qed.
Lemma r_signed_partial C token k algv j : constructible C k ->
  deserialize C token (Some k) algv true = Ok j ->
  (~ false_value algv /\ algv <> PStr (lit "none")) \/
  (~ false_value (dget (lit "alg") (jdata k)) /\ dget (lit "alg") (jdata k) <> PStr (lit "none")) ->
  exists hs ps ss sig name, segments token hs ps ss /\ url_octets ss sig /\ url_octets ps (jpayload j) /\
    lookup (lit "alg") (hdict (jheader j)) = Some (PStr name) /\ accepts C (jmat k) name sig (hs ++ 46 :: ps).
Proof.
  intros Hk H H1. destruct (p_signed_partial _ _ _ _ _ Hk H H1) as (hs & ps & ss & sig & name & A1 & A2 & A3 & A4).
  exists hs, ps, ss, sig, name. apply url_octets_iff in A2, A3. auto.
Qed.
Lemma r_segments C token key algv v : deserialize C token key algv v = Err InvalidJWSSerialization <->
  dots token <> 2%nat \/
  exists hs ps ss hb d name, segments token hs ps ss /\ url_octets hs hb /\ json_object hb d /\ header_valid d /\
    lookup (lit "alg") d = Some (PStr name) /\ ~ false_value algv /\ algv <> PStr name.
Proof.
  destruct (p_segments C token key algv v) as [P1 P2]. split.
  - intros H. destruct (Nat.eq_dec (dots token) 2) as [E|E]; [right|auto].
    destruct (P2 E H) as (T & hs & ps & ss & hb & h & A1 & A2 & A3 & A4).
    apply BaseFacts.rbind_ok in A3 as (hv & Ej & Eh). destruct (header_nondict _ _ Eh) as (d & -> & _).
    apply json_loads_dict in Ej as (Hn & s & Es & El); [|eapply base64url_decode_bytes_ok; eauto]. apply utf8_dec_rfc in Es.
    apply header_iff in Eh as (B1 & _ & B2).
    exists hs, ps, ss, hb, d, (alg_name (halg h)). apply url_octets_iff in A2. pose proof (json_object_loads _ _ _ Es El). auto 10.
  - intros [H|(hs & ps & ss & hb & d & name & A1 & A2 & A3 & A4 & A5 & A6 & A7)]; [apply P1, H|].
    unfold deserialize. apply split3 in A1. rewrite A1. apply url_octets_iff in A2. rewrite A2. cbn [rbind].
    apply json_object_iff in A3 as (s & Es & El). assert (Hn : NoDup (keys d)) by (apply loads_dict in El; tauto).
    apply utf8_dec_rfc in Es. rewrite (json_loads_intro _ _ _ Es El). cbn [rbind].
    assert (Hh : exists h, JsonWebSignatureHeader (PDict d) = Ok h).
    { destruct A4 as (A4 & A4'). destruct A4 as (a & B1 & B2). destruct (alg_of a) as [x|] eqn:Ea.
      - exists {| hdict := without_none d; halg := x |}. apply p_header_iff. exists d, a. apply alg_of_spec in Ea.
        split; auto. split; [split; [exists a; auto|auto]|]. auto.
      - exfalso. apply registered_spec in B2 as (x & B2). apply alg_of_spec in B2. congruence. }
    destruct Hh as (h & Hh). rewrite Hh. cbn [rbind]. rewrite (header_alg_get _ _ Hn Hh). apply true_spec in A6. rewrite A6.
    apply header_iff in Hh as (_ & _ & Hl). rewrite A5 in Hl. injection Hl as ->.
    destruct (py_eq (PStr (alg_name (halg h))) algv) eqn:E; [|reflexivity]. exfalso. apply A7. symmetry.
    destruct algv; try discriminate. simpl in E. apply eqs_true in E. congruence.
Qed.
Lemma r_hmac_unique C s k hs ps ss1 ss2 algv1 algv2 j1 j2 : constructible C k -> jmat k = KOct s ->
  segments (hs ++ 46 :: ps ++ 46 :: ss1) hs ps ss1 -> segments (hs ++ 46 :: ps ++ 46 :: ss2) hs ps ss2 ->
  deserialize C (hs ++ 46 :: ps ++ 46 :: ss1) (Some k) algv1 true = Ok j1 ->
  deserialize C (hs ++ 46 :: ps ++ 46 :: ss2) (Some k) algv2 true = Ok j2 ->
  j1 = j2 /\ (lookup (lit "alg") (hdict (jheader j1)) <> Some (PStr (lit "none")) -> exists sig, url_octets ss1 sig /\ url_octets ss2 sig).
Proof.
  intros Hk Em S1 S2 H1 H2. destruct (p_hmac_unique _ _ _ _ _ _ _ _ _ _ _ Hk Em S1 S2 H1 H2) as [E K]. split; auto.
  intros Hn. specialize (K Hn). apply p_jws_iff in H1; auto.
  destruct H1 as (hs1 & ps1 & t1 & hb1 & s1 & d1 & n1 & A1 & A2 & A3 & A4 & A5 & A6 & A7 & A8 & A9 & A10 & A11 & A12).
  destruct (segments_inj _ _ _ _ _ _ _ A1 S1) as (-> & -> & ->).
  destruct A12 as [->|(sig & B1 & _)].
  - destruct Hn. rewrite A7, without_none_full, lookup_full, A6; auto. apply loads_dict in A4; tauto.
  - exists sig. rewrite B1 in K. symmetry in K. apply url_octets_iff in B1, K. auto.
Qed.
Lemma r_der_only C token k algv j name : constructible C k -> deserialize C token (Some k) algv true = Ok j ->
  lookup (lit "alg") (hdict (jheader j)) = Some (PStr name) -> In name (map fst es_names) ->
  exists hs ps ss r s, segments token hs ps ss /\ url_octets ss (der_sig (r, s)) /\ hd_error (der_sig (r, s)) = Some 48.
Proof.
  intros Hk H H1 H2. destruct (es_der_only _ _ _ _ _ _ Hk H H1 H2) as (hs & ps & ss & r & s & A1 & A2 & A3).
  exists hs, ps, ss, r, s. apply url_octets_iff in A2. auto.
Qed.

Lemma r_ps_salt : exists sig,
  constructible ref rsa_key /\ url_octets ps_sig_digest sig /\
  c_rsa_verify ref rsa_n 65537 (PSS SaltDigest) SHA256 sig ps_message = true /\
  deserialize ref (ps_message ++ 46 :: ps_sig_digest) (Some rsa_key) (PStr (lit "PS256")) true = Err InvalidSignature /\
  rmap jpayload (deserialize ref (ps_message ++ 46 :: ps_sig_max) (Some rsa_key) (PStr (lit "PS256")) true) = Ok (lit "msg").
Proof. destruct ps_salt as (sig & A & B & D). exists sig. apply url_octets_iff in B. auto. Qed.
Lemma r_only_json C :
  (forall token key algv v j, deserialize C token key algv v = Ok j ->
     exists hs ps ss hb d, segments token hs ps ss /\ url_octets hs hb /\ json_object hb d /\
       hdict (jheader j) = without_none d /\ url_octets ps (jpayload j)) /\
  (forall now1 now2 token key algv v options t, jwt_decode C now1 now2 token key algv v options = Ok t ->
     exists hs ps ss pb c, segments token hs ps ss /\ url_octets ps pb /\ json_object pb c /\ tclaims t = without_none c).
Proof.
  destruct (p_only_json C) as [P1 P2]. split.
  - intros * H. destruct (P1 _ _ _ _ _ H) as (hs & ps & ss & hb & s & d & A1 & A2 & A3 & A4 & A5 & A6).
    exists hs, ps, ss, hb, d. apply url_octets_iff in A2, A6. pose proof (json_object_loads _ _ _ A3 A4). auto.
  - intros * H. destruct (P2 _ _ _ _ _ _ _ _ H) as (hs & ps & ss & hb & s & d & A1 & A2 & A3 & A4 & A5).
    exists hs, ps, ss, hb, d. apply url_octets_iff in A2. pose proof (json_object_loads _ _ _ A3 A4). auto.
Qed.
Lemma r_decode_unchecked C :
  (forall now1 now2 token key key' algv options options' t,
     jwt_decode C now1 now2 token key algv true options = Ok t -> jwt_decode C now1 now2 token key' algv false options' = Ok t) /\
  (forall C' now1 now2 token hs ps ss ss' key key' algv options options', segments token hs ps ss -> ~ In 46 ss' ->
     jwt_decode C now1 now2 token key algv false options = jwt_decode C' now1 now2 (hs ++ 46 :: ps ++ 46 :: ss') key' algv false options') /\
  (forall now1 now2 token key algv options t, jwt_decode C now1 now2 token key algv false options = Ok t ->
     exists hs ps ss hb d pb c, segments token hs ps ss /\
       url_octets hs hb /\ json_object hb d /\ header_valid d /\
       url_octets ps pb /\ json_object pb c /\
       claims_met now1 c /\ claims_met now2 c /\ tclaims t = without_none c /\ hdict (jheader (tjws t)) = without_none d).
Proof.
  destruct (p_decode_unchecked C) as (P1 & P2 & P3). split; [exact P1|]. split; [exact P2|].
  intros * H. destruct (P3 _ _ _ _ _ _ _ H) as (hs & ps & ss & hb & s & d & pb & s' & c & A1 & A2 & A3 & A4 & A5 & A6 & A7 & A8 & A9 & A10 & A11 & A12).
  exists hs, ps, ss, hb, d, pb, c. apply url_octets_iff in A2, A6. pose proof (json_object_loads _ _ _ A3 A4). pose proof (json_object_loads _ _ _ A7 A8). auto 12.
Qed.
