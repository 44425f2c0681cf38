(** Which error a token raises that is made and signed: lemmas for C141. *)
From Coq Require Import String Ascii List NArith ZArith Bool Lia ZifyBool ZifyNat ZifyN.
From Verif Require Import Base BaseFacts SpecPy PyFacts Base64 Json Webtools WebtoolsFacts Crypto RefCrypto Jwk SpecKey Jws SpecJws JwsFacts Jwt SpecJwt JwtFacts SpecReaders SpecJoseErr JoseErrFacts ClaimFacts.
Import ListNotations.
Open Scope N_scope.

Lemma tells_made now v h : tells (token_checks now v h) (JsonWebToken now v h).
Proof.
  unfold token_checks, JsonWebToken.
  apply tells_bind; [repeat constructor; discriminate|apply tells_header_in; reflexivity|intros hd _].
  apply tells_bind; [repeat constructor; discriminate|exact (tells_init now v PNone false)|intros c Hc].
  destruct (c140_value now v PNone c (or_introl Hc)) as (d & -> & ->).
  apply (tells_bind [_] []); [repeat constructor; discriminate| |intros; apply tells_nil].
  eapply tells_iff; [|apply tells_write]. split; [intros (c' & [= <-] & H); exact H|eauto].
Qed.

Lemma sign_ok C rand a m data : a <> Anone -> alg_fits a m -> private_part m -> signs_by_size C m ->
  (signing_room m (alg_name a) -> exists sig, mat_sign C rand m data (alg_hash a) (alg_padding a) = Ok sig) /\
  (~ signing_room m (alg_name a) -> mat_sign C rand m data (alg_hash a) (alg_padding a) = Err ValueError).
Proof.
  intros Ha F Hp Hs. destruct a as [|h|h|h|h]; try congruence; destruct m as [s|n ee [k|]|c x y [o|]]; try (exfalso; exact F); try (exfalso; exact Hp);
    cbn [mat_sign alg_hash alg_padding padding_fits].
  - split; [eauto|]. intros H. destruct H. split; intros ? ? ? ? E; discriminate.
  - destruct (Hs n ee k rand h data eq_refl) as (H1 & H2 & _). split.
    + intros (_ & R). apply H1. apply (R _ _ _ _ eq_refl). apply rs_in. reflexivity.
    + intros R. apply H2. destruct (Nat.le_gt_cases (digest_size h + 30) (byte_len n)) as [L|L]; [|exact L]. destruct R. split.
      * intros n' e' o' h' E Hin. apply ps_in in Hin. discriminate.
      * intros n' e' o' h' E Hin. injection E as <- <- <-. apply rs_in in Hin. injection Hin as <-. exact L.
  - split; [eauto|]. intros H. destruct H. split; intros ? ? ? ? E; discriminate.
  - destruct (Hs n ee k rand h data eq_refl) as (_ & _ & H3). split.
    + intros (R & _). assert (L : (digest_size h + 2 <= byte_len n)%nat) by (apply (R _ _ _ _ eq_refl); apply ps_in; reflexivity).
      apply Nat.leb_le in L as L'. rewrite L'. apply H3. exact L.
    + intros R. destruct (Nat.leb (digest_size h + 2) (byte_len n)) eqn:L; [|reflexivity]. apply Nat.leb_le in L. destruct R. split.
      * intros n' e' o' h' E Hin. injection E as <- <- <-. apply ps_in in Hin. injection Hin as <-. exact L.
      * intros n' e' o' h' E Hin. apply rs_in in Hin. discriminate.
Qed.
Lemma sign_public C rand a m data : a <> Anone -> alg_fits a m -> ~ private_part m -> mat_sign C rand m data (alg_hash a) (alg_padding a) = Err InvalidKey.
Proof.
  intros Ha F Hp. destruct a as [|h|h|h|h]; try congruence; destruct m as [s|n ee [k|]|c x y [o|]]; try (exfalso; exact F); try (destruct Hp; exact I); reflexivity.
Qed.
Lemma room_dec m name : signing_room m name \/ ~ signing_room m name.
Proof.
  unfold signing_room, key_has_room. destruct m as [s|n e o|c x y o]; try (left; split; intros ? ? ? ? E; discriminate).
  assert (D : forall l k, (forall h, In (name, h) l -> (digest_size h + k <= byte_len n)%nat) \/ ~ (forall h, In (name, h) l -> (digest_size h + k <= byte_len n)%nat)).
  { intros l k. induction l as [|[nm h] l IH]; [left; intros h []|]. destruct IH as [IH|IH]; [|right; intros H; apply IH; intros h' Hh; apply H; right; exact Hh].
    destruct (eqs nm name) eqn:E.
    - apply eqs_true in E. subst nm. destruct (le_dec (digest_size h + k) (byte_len n)) as [L|L]; [|right; intros H; apply L, H; left; reflexivity].
      left. intros h' [[= <-]|Hh]; auto.
    - left. intros h' [[= <- <-]|Hh]; [rewrite (proj2 (eqs_true nm nm)) in E by reflexivity; discriminate|auto]. }
  destruct (D ps_names 2%nat) as [A|A]; [destruct (D rs_names 30%nat) as [B|B]|].
  - left. split; intros n' e' o' h E; injection E as <- <- <-; auto.
  - right. intros (_ & R). apply B. intros h. exact (R _ _ _ h eq_refl).
  - right. intros (R & _). apply A. intros h. exact (R _ _ _ h eq_refl).
Qed.
Lemma tells_serialize C rand d h payload key : NoDup (keys d) -> JsonWebSignatureHeader (PDict d) = Ok h ->
  (forall k, key = Some k -> constructible C k /\ signs_by_size C (jmat k)) ->
  tells (serialize_checks d key) (serialize C rand {| jheader := h; jpayload := payload |} key).
Proof.
  intros Hn Hh Hk. destruct key as [k|]; [|apply tells_fail; auto]. destruct (Hk k eq_refl) as (Hc & Hs). clear Hk.
  unfold serialize_checks, serialize. cbv zeta. cbn [jheader jpayload].
  apply (tells_bind [_; _; _]); [repeat constructor; discriminate|apply (tells_key_in d); [reflexivity|exact Hn|exact Hh]|intros [] Hv].
  pose proof Hh as Hh'. apply header_iff in Hh' as (_ & Hdd & Hl).
  rewrite Hdd. rewrite <- without_none_full.
  apply (tells_bind [_]); [repeat constructor; discriminate|apply tells_write|intros hb _].
  set (data := base64url_encode hb ++ 46 :: base64url_encode payload). clearbody data.
  rewrite <- (app_nil_r [_; _]). apply tells_bind; [repeat constructor; discriminate| |intros; apply tells_nil].
  set (a := halg h) in *.
  assert (HI : forall P : str -> Prop, (exists name, lookup (chars "alg") d = Some (PStr name) /\ (name = chars "none" \/ P name)) <-> (alg_name a = chars "none" \/ P (alg_name a))).
  { intros P. change (chars "alg") with (lit "alg"). rewrite Hl. split; [intros (nm & [= <-] & H); exact H|eauto]. }
  assert (D : a = Anone \/ a <> Anone) by (destruct a; [left; reflexivity|right; discriminate..]). destruct D as [E|Ha].
  { do 2 (apply tells_pass; [apply HI; left; rewrite E; reflexivity|]). rewrite E. apply tells_nil. }
  assert (Hnn : alg_name a <> chars "none") by (intros E; apply none_alg in E; auto).
  assert (E : alg_sign C rand a data (Some k) =
     let! k := alg_validate_key a (Some k) in
     let! sig := mat_sign C rand (jmat k) data (alg_hash a) (alg_padding a) in Ok (base64url_encode sig)) by (destruct a; [congruence|auto..]). rewrite E. clear E.
  assert (Hal : truthy (dget (lit "alg") (jdata k)) = true -> dget (lit "alg") (jdata k) = PStr (alg_name a)).
  { apply (validate_key_iff k d h Hn Hh) in Hv as (Hv & _). intros T. rewrite (Hv (proj1 (true_spec _) T)). unfold dget. rewrite Hl. reflexivity. }
  destruct (alg_validate_key a (Some k)) as [k'|e] eqn:Ek; cbn [rbind].
  2:{ assert (e = InvalidKey) as ->.
      { unfold alg_validate_key in Ek. destruct (_ && _); [congruence|]. destruct (negb _); [congruence|]. destruct (alg_curve a); [destruct (negb _)|]; congruence. }
      apply tells_fail. rewrite HI. intros [H|(H & _)]; [auto|]. apply key_suits_iff in H; [|exact Ha].
      assert (alg_validate_key a (Some k) = Ok k) by (apply (alg_validate_key_ok C); auto). congruence. }
  apply (alg_validate_key_ok C) in Ek as (-> & _ & F); auto.
  assert (DP : private_part (jmat k) \/ ~ private_part (jmat k)) by (destruct (jmat k) as [?|? ? [?|]|? ? ? [?|]]; cbn [private_part]; auto).
  destruct DP as [DP|DP].
  2:{ rewrite (sign_public C rand a (jmat k) data Ha F DP). cbn [rbind]. apply tells_fail. rewrite HI. intros [H|(_ & H)]; auto. }
  apply tells_pass; [apply HI; right; split; [apply key_suits_iff; auto|exact DP]|].
  destruct (sign_ok C rand a (jmat k) data Ha F DP Hs) as (S1 & S2).
  destruct (room_dec (jmat k) (alg_name a)) as [R|R].
  - destruct (S1 R) as (sig & ->). apply tells_pass; [apply HI; auto|apply tells_nil].
  - rewrite (S2 R). apply tells_fail. rewrite HI. intros [H|H]; auto.
Qed.

Lemma c141_made now v h e : decided (token_checks now v h) None e <-> match JsonWebToken now v h with Ok _ => e = None | Err x => e = Some x end.
Proof. rewrite (tells_made now v h e). destruct (JsonWebToken now v h); reflexivity. Qed.
Lemma c141_header v e : decided (header_lines (fun P => exists d, v = PDict d /\ P d)) None e <-> match JsonWebSignatureHeader v with Ok _ => e = None | Err x => e = Some x end.
Proof.
  assert (T : tells (header_lines (fun P => exists d, v = PDict d /\ P d)) (JsonWebSignatureHeader v)) by (apply tells_header_in; reflexivity).
  rewrite (T e). destruct (JsonWebSignatureHeader v); reflexivity.
Qed.
Lemma c141_signed C rand d h payload key e : NoDup (keys d) -> JsonWebSignatureHeader (PDict d) = Ok h ->
  (forall k, key = Some k -> constructible C k /\ signs_by_size C (jmat k)) ->
  (decided (serialize_checks d key) None e <-> match serialize C rand {| jheader := h; jpayload := payload |} key with Ok _ => e = None | Err x => e = Some x end).
Proof. intros Hn Hh Hk. rewrite (tells_serialize C rand d h payload key Hn Hh Hk e). destruct (serialize _ _ _ _); reflexivity. Qed.
Lemma c141_encoded C rand now v d t key e : NoDup (keys d) -> JsonWebToken now v (PDict d) = Ok t ->
  (forall k, key = Some k -> constructible C k /\ signs_by_size C (jmat k)) ->
  (decided (serialize_checks d key) None e <-> match jwt_encode C rand t key with Ok _ => e = None | Err x => e = Some x end).
Proof.
  intros Hn Ht Hk. unfold JsonWebToken in Ht. apply BaseFacts.rbind_ok in Ht as (h & Hh & Ht). apply BaseFacts.rbind_ok in Ht as (c & _ & Ht). apply BaseFacts.rbind_ok in Ht as (p & _ & Ht).
  injection Ht as <-. rewrite (c141_signed C rand d h p key e Hn Hh Hk). unfold jwt_encode. cbn [tjws]. destruct (serialize _ _ _ _); reflexivity.
Qed.

(** ** The reference back end *)
Lemma step_length w r0 r1 st k wt : length (step w r0 r1 st k wt) = length st.
Proof. destruct st as [|a [|b [|c [|d [|e [|f [|g [|h [|i st]]]]]]]]]; reflexivity. Qed.
Lemma go_length w r0 r1 r2 r3 ks : forall win st, length (go w r0 r1 r2 r3 ks win st) = length st.
Proof. induction ks as [|k ks IH]; intros [|wt win] st; cbn [go]; auto. rewrite IH. apply step_length. Qed.
Lemma blocks_length w K r0 r1 r2 r3 n bs : forall b st, length (blocks w K r0 r1 r2 r3 n bs b st) = length st.
Proof. induction n as [|n IH]; intros b st; cbn [blocks]; auto. rewrite IH, map_length, combine_length, go_length. lia. Qed.
Lemma flat_be_length k l : length (flat_map (be_bytes k) l) = (k * length l)%nat.
Proof. induction l as [|x l IH]; cbn [flat_map length]; [lia|]. rewrite app_length, be_bytes_length, IH. lia. Qed.
Lemma sha_length h data : length (sha h data) = digest_len h.
Proof.
  unfold sha. rewrite firstn_length. apply Nat.min_l. destruct h; unfold sha2; rewrite flat_be_length, blocks_length; cbn [digest_len]; vm_compute; lia.
Qed.
Lemma ref_signs_by_size n e o : N.size n mod 8 <> 1 -> signs_by_size ref (KRSA n e o).
Proof.
  intros Hm n' e' k rand h data E. injection E as <- <- ->. cbn [ref c_rsa_sign]. unfold rsa_sign. cbv zeta.
  assert (Hd : digest_len h = digest_size h) by (destruct h; reflexivity).
  assert (Hi : length (digest_info h ++ sha h data) = (digest_size h + 19)%nat).
  { rewrite app_length, sha_length, Hd. destruct h; reflexivity. }
  split; [|split].
  - intros L. unfold pkcs1. cbv zeta. rewrite Hi. destruct (Nat.ltb_spec (byte_len n) (digest_size h + 19 + 11)); [lia|eauto].
  - intros L. unfold pkcs1. cbv zeta. rewrite Hi. destruct (Nat.ltb_spec (byte_len n) (digest_size h + 19 + 11)); [reflexivity|lia].
  - intros L. set (salt := firstn _ _).
    assert (Ls : (length salt <= salt_len SaltMax h n)%nat) by (unfold salt; rewrite firstn_length; lia). clearbody salt.
    unfold salt_len in Ls. unfold pss. cbv zeta. rewrite Hd in *.
    assert (X : N.to_nat ((N.size n - 1 + 7) / 8) = byte_len n).
    { unfold byte_len. f_equal. assert (N.size n <> 0) by (intros Z; unfold byte_len in L; rewrite Z in L; change (N.to_nat ((0 + 7) / 8)) with 0%nat in L; lia).
      revert H Hm. clear. generalize (N.size n). intros s H Hm. pose proof (N.div_mod s 8 ltac:(lia)) as Q. pose proof (N.mod_lt s 8 ltac:(lia)).
      set (q := s / 8) in *. set (r := s mod 8) in *. clearbody q r. subst s.
      destruct (N.eq_dec r 0) as [->|R].
      - replace (8 * q + 0 - 1 + 7) with (6 + (q) * 8) by lia. replace (8 * q + 0 + 7) with (7 + q * 8) by lia. rewrite !N.div_add by lia. reflexivity.
      - replace (8 * q + r - 1 + 7) with ((r - 2) + (q + 1) * 8) by lia. replace (8 * q + r + 7) with ((r - 1) + (q + 1) * 8) by lia. rewrite !N.div_add by lia.
        rewrite !N.div_small by lia. reflexivity. }
    rewrite X in *. destruct (Nat.ltb_spec (byte_len n) (digest_size h + length salt + 2)); [lia|eauto].
Qed.

(** C78: an RSA key that signs has room for the digest. *)
Lemma p_rsa_room C rand d h payload k token name : NoDup (keys d) -> JsonWebSignatureHeader (PDict d) = Ok h -> constructible C k -> signs_by_size C (jmat k) ->
  serialize C rand {| jheader := h; jpayload := payload |} (Some k) = Ok token -> lookup (lit "alg") d = Some (PStr name) ->
  signing_room (jmat k) name.
Proof.
  intros Hn Hh Hk Hs H Hl. destruct (room_dec (jmat k) name) as [R|R]; [exact R|exfalso].
  assert (T : tells (serialize_checks d (Some k)) (serialize C rand {| jheader := h; jpayload := payload |} (Some k))).
  { apply tells_serialize; auto. intros k' [= <-]. auto. }
  specialize (T None). rewrite H in T. apply proj2 in T. specialize (T eq_refl). cbn [serialize_checks decided] in T.
  do 5 (destruct T as [[_ T]|[_ T]]; [|discriminate]). destruct T as [[(nm & Hl' & T) _]|[_ T]]; [|discriminate].
  change (chars "alg") with (lit "alg") in Hl'. rewrite Hl in Hl'. injection Hl' as <-. destruct T as [->|T]; [|exact (R T)].
  apply R. split; intros n e o hh _ Hin; vm_compute in Hin; intuition discriminate.
Qed.
