(** The text of a signed token: lemmas for C146. *)
From Coq Require Import String Ascii List NArith ZArith Bool Lia ZifyBool ZifyNat ZifyN.
From Verif Require Import Base BaseFacts SpecPy PyFacts SpecCodec Base64 Base64Facts Utf8Facts Json Webtools WebtoolsFacts Crypto Jwk SpecKey Jws SpecJws JwsFacts Jwt JwtFacts SpecReaders SpecJoseErr JoseErrFacts ClaimFacts SpecWrite WriteFacts SpecToken.
Import ListNotations.
Open Scope N_scope.

Lemma signs_iff C rand a m data sig : a <> Anone ->
  (signs C rand m (alg_name a) data sig <-> alg_fits a m /\ mat_sign C rand m data (alg_hash a) (alg_padding a) = Ok sig).
Proof.
  intros Ha. split.
  - remember (alg_name a) as nm eqn:En. intros H.
    destruct H as [s name h data Hin|n e k name h data sig Hin Hs|n e k name h data sig Hin L Hs|c x y d name h data Hin]; subst name.
    + apply hs_in in Hin as ->. split; [exact I|reflexivity].
    + apply rs_in in Hin as ->. split; [exact I|]. cbn [mat_sign alg_hash alg_padding padding_fits]. exact Hs.
    + apply ps_in in Hin as ->. split; [exact I|]. cbn [mat_sign alg_hash alg_padding padding_fits]. apply Nat.leb_le in L. rewrite L. exact Hs.
    + apply es_in in Hin as (-> & ->). split; reflexivity.
  - intros (F & H). destruct a as [|h|h|h|h]; try congruence; destruct m as [s|n e o|c x y o]; try (exfalso; exact F);
      cbn [mat_sign alg_hash alg_padding padding_fits] in H.
    + injection H as H. subst. constructor. apply hs_in. reflexivity.
    + destruct o as [k|]; [|discriminate]. eapply sign_rs; eauto. apply rs_in. reflexivity.
    + destruct o as [k|]; [|discriminate]. injection H as H. subst. cbn [alg_fits] in F. subst c. constructor. apply es_in. auto.
    + destruct o as [k|]; [|discriminate]. destruct (Nat.leb _ _) eqn:L; [|discriminate]. apply Nat.leb_le in L. eapply sign_ps; eauto. apply ps_in. reflexivity.
Qed.
Lemma octets_bytes v b : octets_of v b -> bytes_ok b.
Proof. intros H. apply octets_iff in H. unfold to_bytes in H. apply utf8_encode_ok in H. tauto. Qed.

Lemma c146 C rand d h payload k token : NoDup (keys d) -> JsonWebSignatureHeader (PDict d) = Ok h ->
  constructible C k -> backend_correct C (jmat k) -> bytes_ok payload ->
  (serialize C rand {| jheader := h; jpayload := payload |} (Some k) = Ok token <-> token_text C rand k d payload token).
Proof.
  intros Hn Hh Hk Hb Hp. pose proof Hh as Hh'. apply header_iff in Hh' as (_ & Hdd & Hl).
  unfold token_text, third_segment. change (chars "alg") with (lit "alg"). rewrite Hl. split.
  - intros H. pose proof (serialize_ok C rand d h payload k token Hk Hn Hh H) as (Hkp & hb & Eb & H'). split; [exact Hkp|]. cbv zeta in H'. clear H.
    assert (Ho : octets_of (PDict (without_none d)) hb) by (apply octets_iff; rewrite without_none_full; exact Eb).
    rewrite (base64url_encode_rfc hb) in H' by (eapply octets_bytes; eauto). rewrite (base64url_encode_rfc payload) in H' by auto.
    exists (rfc4648_url hb ++ chars "." ++ rfc4648_url payload). destruct H' as [(Ea & ->)|(Ha & F & sig & Es & ->)].
    + exists []. split; [exists hb; auto|]. split; [|reflexivity]. exists (alg_name (halg h)). split; [reflexivity|left]. rewrite Ea. auto.
    + exists (rfc4648_url sig). split; [exists hb; auto|]. split.
      * exists (alg_name (halg h)). split; [reflexivity|right]. exists sig. split; [|reflexivity]. apply signs_iff; auto.
      * rewrite (base64url_encode_rfc sig) by (eapply mat_sign_accepts; eauto). reflexivity.
  - intros (Hkp & input & seg & (hb & Ho & ->) & (nm & [= <-] & Hs) & ->). pose proof (octets_bytes _ _ Ho) as Hob.
    unfold serialize. cbn [jheader jpayload]. rewrite (proj2 (validate_key_iff k d h Hn Hh) Hkp). cbn [rbind].
    rewrite Hdd, <- without_none_full. rewrite (proj2 (octets_iff _ _) Ho). cbn [rbind]. cbv zeta.
    rewrite (base64url_encode_rfc hb), (base64url_encode_rfc payload) by auto.
    change (46 :: rfc4648_url payload) with (chars "." ++ rfc4648_url payload). set (m := rfc4648_url hb ++ _) in *. clearbody m.
    destruct Hs as [(En & ->)|(sig & Hs & ->)].
    + apply none_alg in En. rewrite En. reflexivity.
    + assert (Ha : halg h <> Anone).
      { intros E. rewrite E in Hs. remember (alg_name Anone) as nm eqn:En. destruct Hs as [s name h' data Hin|n e o name h' data sig Hin _|n e o name h' data sig Hin _ _|c x y o name h' data Hin]; subst name;
          [apply hs_in in Hin|apply rs_in in Hin|apply ps_in in Hin|apply es_in in Hin as (Hin & _)]; discriminate. }
      apply signs_iff in Hs as (F & Es); [|exact Ha].
      assert (E : alg_sign C rand (halg h) m (Some k) =
         let! k := alg_validate_key (halg h) (Some k) in
         let! sig := mat_sign C rand (jmat k) m (alg_hash (halg h)) (alg_padding (halg h)) in Ok (base64url_encode sig)) by (destruct (halg h); [congruence|auto..]). rewrite E. clear E.
      rewrite (proj2 (alg_validate_key_ok C (halg h) k k Hk Ha)).
      * cbn [rbind]. rewrite Es. cbn [rbind]. rewrite (base64url_encode_rfc sig) by (eapply mat_sign_accepts; eauto). reflexivity.
      * split; [reflexivity|]. split; [|exact F]. intros T. destruct Hkp as (Hv & _). rewrite (Hv (proj1 (true_spec _) T)). unfold dget. rewrite Hl. reflexivity.
Qed.
Lemma c146_encoded C rand now v d t k token : NoDup (keys d) -> JsonWebToken now v (PDict d) = Ok t -> constructible C k -> backend_correct C (jmat k) ->
  (jwt_encode C rand t (Some k) = Ok token <->
   exists c payload, v = PDict c /\ octets_of (PDict (without_none c)) payload /\ token_text C rand k d payload token).
Proof.
  intros Hn Ht Hk Hb. unfold JsonWebToken in Ht. apply BaseFacts.rbind_ok in Ht as (h & Hh & Ht). apply BaseFacts.rbind_ok in Ht as (c & Hc & Ht). apply BaseFacts.rbind_ok in Ht as (p & Hp & Ht).
  destruct (c140_value now v PNone c (or_introl Hc)) as (v' & -> & ->). apply octets_iff in Hp.
  pose proof (octets_bytes _ _ Hp) as Hpb. injection Ht as <-. unfold jwt_encode. cbn [tjws].
  pose proof (c146 C rand d h p k) as K. split.
  - intros H. apply BaseFacts.rbind_ok in H as (b & Es & H). pose proof (serialize_ascii C rand d h p k b Hk Hn Hb Hpb Hh Es) as A.
    exists v', p. do 2 (split; [auto|]). apply K in Es; auto. injection H as H. rewrite to_string_ascii in H by exact A. subst. exact Es.
  - intros (c & p' & [= <-] & Hp' & H). assert (p' = p) as -> by (apply octets_iff in Hp, Hp'; congruence).
    apply K in H; auto. rewrite H. cbn [rbind]. rewrite to_string_ascii; [reflexivity|]. eapply serialize_ascii; eauto.
Qed.
