(** Signing and verifying with a key directly: lemmas for C147 and C148. *)
From Coq Require Import String Ascii List NArith ZArith Bool Lia ZifyBool ZifyNat ZifyN.
From Verif Require Import Base BaseFacts SpecCodec Base64 Webtools Crypto Jwk SpecKey Jws SpecJws JwsFacts SpecReaders SpecJoseErr JoseErrFacts JwkSign SpecKeySign.
Import ListNotations.
Open Scope N_scope.
Notation rbind_ok := BaseFacts.rbind_ok.

(** ** The arguments *)
Lemma hash_named_iff s h : hash_named s = Ok h <-> In (s, h) hash_names.
Proof.
  unfold hash_named, hash_names. change chars with lit. split.
  - intros H. destruct (eqs s (lit "SHA256")) eqn:E1; [apply eqs_true in E1; injection H as <-; subst; left; reflexivity|].
    destruct (eqs s (lit "SHA384")) eqn:E2; [apply eqs_true in E2; injection H as <-; subst; right; left; reflexivity|].
    destruct (eqs s (lit "SHA512")) eqn:E3; [apply eqs_true in E3; injection H as <-; subst; right; right; left; reflexivity|discriminate].
  - intros [[= <- <-]|[[= <- <-]|[[= <- <-]|[]]]]; reflexivity.
Qed.
Lemma get_alg_iff a h : get_alg a = Ok h <-> names_hash a h.
Proof.
  unfold names_hash. split.
  - destruct a as [h'|v]; cbn [get_alg]; [intros [= ->]; auto|]. destruct v; try discriminate. intros H. apply hash_named_iff in H. eauto.
  - intros [->|(s & -> & H)]; [reflexivity|]. apply hash_named_iff, H.
Qed.
Lemma tells_get_alg a : tells (hash_checks a) (get_alg a).
Proof.
  unfold hash_checks. destruct a as [h|v].
  - apply tells_pass; [discriminate|]. apply tells_pass; [exists h; left; reflexivity|]. apply tells_nil.
  - destruct v as [| | | |s| |]; try (apply tells_fail; intros H; destruct (H _ eq_refl); discriminate).
    apply tells_pass; [intros v [= <-]; eauto|]. apply tells_one.
    + setoid_rewrite get_alg_iff. reflexivity.
    + intros e. cbn [get_alg]. unfold hash_named. repeat (destruct (eqs _ _); [discriminate|]). intros [= <-]. reflexivity.
Qed.
Lemma padding_kwarg_iff kw v : padding_kwarg kw = Ok v <-> kw = padding_arg v.
Proof.
  unfold padding_arg. change chars with lit. split.
  - destruct kw as [|[name w] [|? ?]]; try discriminate. cbn [padding_kwarg]. destruct (eqs name _) eqn:E; [|discriminate]. apply eqs_true in E. intros [= <-]. subst. reflexivity.
  - intros ->. reflexivity.
Qed.
Lemma padding_kwarg_err kw e : padding_kwarg kw = Err e -> e = TypeError.
Proof. destruct kw as [|[name w] [|? ?]]; cbn [padding_kwarg]; try congruence. destruct (eqs _ _); congruence. Qed.
Lemma padding_named_iff v p : padding_named v = Ok p <-> exists s, v = PStr s /\ In (s, p) padding_names.
Proof.
  unfold padding_names. change chars with lit. split.
  - destruct v as [| | | |s| |]; try discriminate. cbn [padding_named]. intros H. exists s. split; [reflexivity|].
    destruct (eqs s (lit "PKCS1v15")) eqn:E1; [apply eqs_true in E1; injection H as <-; subst; left; reflexivity|].
    destruct (eqs s (lit "PSS")) eqn:E2; [apply eqs_true in E2; injection H as <-; subst; right; left; reflexivity|discriminate].
  - intros (s & -> & [[= <- <-]|[[= <- <-]|[]]]); reflexivity.
Qed.
Lemma padding_named_err v e : padding_named v = Err e -> e = InvalidKey.
Proof. destruct v; cbn [padding_named]; try congruence. destruct (eqs _ _); try congruence. destruct (eqs _ _); congruence. Qed.
Lemma padding_arg_inj v w : padding_arg v = padding_arg w -> v = w.
Proof. unfold padding_arg. intros H. injection H as H. exact H. Qed.
Lemma tells_no_kwargs m kw : (forall n e o, m <> KRSA n e o) -> tells [(args_fit m kw, Some TypeError)] (no_kwargs kw).
Proof.
  intros Hm. assert (E : args_fit m kw <-> kw = []) by (destruct m; try reflexivity; destruct (Hm _ _ _ eq_refl)).
  apply tells_one; [rewrite E|]; destruct kw; cbn [no_kwargs]; try congruence; split; eauto; [discriminate|intros (? & K); discriminate].
Qed.
Lemma tells_padding_kwarg n e o kw : tells [(args_fit (KRSA n e o) kw, Some TypeError)] (padding_kwarg kw).
Proof. apply tells_one; [|apply padding_kwarg_err]. cbn [args_fit]. setoid_rewrite padding_kwarg_iff. reflexivity. Qed.
Lemma tells_padding_named n e o v : tells [(padding_known (KRSA n e o) (padding_arg v), Some InvalidKey)] (padding_named v).
Proof.
  apply tells_one; [|apply padding_named_err]. cbn [padding_known]. setoid_rewrite padding_named_iff. split.
  - intros (s & p & E & H). apply padding_arg_inj in E. eauto.
  - intros (p & s & -> & H). eauto.
Qed.
Lemma fits_iff n p h : In p [PKCS1v15; PSS SaltMax] -> (padding_fits n p h = true <-> room_to_verify n p h).
Proof.
  unfold room_to_verify. intros [<-|[<-|[]]]; cbn [padding_fits]; [tauto|]. rewrite Nat.leb_le. split; [auto|]. intros [K|K]; [discriminate|exact K].
Qed.
Lemma named_padding s p : In (s, p) padding_names -> In p [PKCS1v15; PSS SaltMax].
Proof. intros [[= <- <-]|[[= <- <-]|[]]]; [left|right; left]; reflexivity. Qed.
Lemma names_hash_det a h h' : names_hash a h -> names_hash a h' -> h = h'.
Proof. rewrite <- !get_alg_iff. congruence. Qed.
Lemma padding_det s p p' : In (s, p) padding_names -> In (s, p') padding_names -> p = p'.
Proof. intros H H'. assert (K : padding_named (PStr s) = Ok p) by (apply padding_named_iff; eauto). assert (K' : padding_named (PStr s) = Ok p') by (apply padding_named_iff; eauto). congruence. Qed.
Lemma has_room_iff room n e o s p a h : In (s, p) padding_names -> names_hash a h ->
  (has_room room (KRSA n e o) a (padding_arg (PStr s)) <-> room n p h).
Proof.
  intros Hs Ha. unfold has_room. split; [eauto|].
  intros H n' e' o' s' p' h' E Es Hs' Ha'. injection E as <- <- <-. apply padding_arg_inj in Es. injection Es as <-.
  rewrite (padding_det _ _ _ Hs' Hs), (names_hash_det _ _ _ Ha' Ha). exact H.
Qed.
Lemma hash_errs a : errs (hash_checks a).
Proof. repeat constructor; discriminate. Qed.
Ltac errs1 := repeat constructor; discriminate.

(** ** C147 *)
Lemma c147 C rand k data a kw : signs_by_size C (jmat k) -> tells (sign_checks (jmat k) a kw) (key_sign C rand k data a kw).
Proof.
  intros Hs. unfold key_sign, sign_checks. destruct (jmat k) as [s|n e o|c x y o].
  - change ([?x; ?y] ++ ?l) with ([x] ++ y :: l). apply tells_bind; [errs1|apply tells_no_kwargs; discriminate|intros _ _].
    apply tells_pass; [exact I|]. apply tells_bind; [apply hash_errs|apply tells_get_alg|intros h _]. apply tells_pass; [exact I|].
    apply tells_pass; [intros ? ? ? ? ? ? E; discriminate|]. apply tells_nil.
  - change ([?x; ?y] ++ ?l) with ([x] ++ y :: l). apply tells_bind; [errs1|apply tells_padding_kwarg|intros v Hv]. apply padding_kwarg_iff in Hv. subst kw.
    destruct o as [pk|]; [|apply tells_fail; auto]. apply tells_pass; [exact I|].
    apply tells_bind; [apply hash_errs|apply tells_get_alg|intros h Hh]. apply get_alg_iff in Hh.
    change ([?x; ?y]) with ([x] ++ [y]). apply tells_bind; [errs1|apply tells_padding_named|intros p Hp].
    apply padding_named_iff in Hp as (s & -> & Hp). cbn [mat_sign].
    destruct (Hs n e pk rand h data eq_refl) as (H1 & H2 & H3).
    apply (tells_iff _ (room_to_sign n p h)); [apply has_room_iff; auto|].
    destruct (named_padding _ _ Hp) as [<-|[<-|[]]]; cbn [padding_fits room_to_sign].
    + apply tells_one.
      * split; [exact H1|]. intros (sig & E). destruct (Nat.le_gt_cases (digest_size h + 30) (byte_len n)) as [L|L]; [exact L|]. rewrite (H2 L) in E. discriminate.
      * intros e' E. destruct (Nat.le_gt_cases (digest_size h + 30) (byte_len n)) as [L|L]; [destruct (H1 L) as (? & K); congruence|]. rewrite (H2 L) in E. congruence.
    + destruct (Nat.leb_spec (digest_size h + 2) (byte_len n)) as [L|L]; [|apply tells_fail; lia].
      destruct (H3 L) as (sig & ->). apply tells_pass; [exact L|]. apply tells_nil.
  - change ([?x; ?y] ++ ?l) with ([x] ++ y :: l). apply tells_bind; [errs1|apply tells_no_kwargs; discriminate|intros _ _].
    destruct o as [d|]; [|apply tells_fail; auto]. apply tells_pass; [exact I|].
    apply tells_bind; [apply hash_errs|apply tells_get_alg|intros h _]. apply tells_pass; [exact I|].
    apply tells_pass; [intros ? ? ? ? ? ? E; discriminate|]. apply tells_nil.
Qed.
Lemma c147_errors C rand k data a kw e : signs_by_size C (jmat k) ->
  (decided (sign_checks (jmat k) a kw) None e <-> match key_sign C rand k data a kw with Ok _ => e = None | Err x => e = Some x end).
Proof. intros H. rewrite (c147 C rand k data a kw H e). destruct (key_sign _ _ _ _ _ _); reflexivity. Qed.
Lemma c147_signature C rand k data a kw sig :
  key_sign C rand k data a kw = Ok sig <-> exists h, names_hash a h /\ signature_of C rand data (jmat k) h kw sig.
Proof.
  unfold key_sign. destruct (jmat k) as [s|n e o|c x y o]; split.
  - intros H. apply rbind_ok in H as (? & Hk & H). apply rbind_ok in H as (h & Hh & H). destruct kw; [|discriminate]. cbn [mat_sign] in H. injection H as <-.
    exists h. split; [apply get_alg_iff, Hh|constructor].
  - intros (h & Hh & H). inversion H; subst. cbn [no_kwargs rbind]. rewrite (proj2 (get_alg_iff _ _) Hh). reflexivity.
  - intros H. apply rbind_ok in H as (v & Hk & H). apply padding_kwarg_iff in Hk. subst kw. destruct o as [pk|]; [|discriminate].
    apply rbind_ok in H as (h & Hh & H). apply rbind_ok in H as (p & Hp & H). apply padding_named_iff in Hp as (s & -> & Hp). cbn [mat_sign] in H.
    destruct (padding_fits n p h) eqn:F; [|discriminate]. exists h. split; [apply get_alg_iff, Hh|]. econstructor; eauto. apply fits_iff; [eapply named_padding; eauto|exact F].
  - intros (h & Hh & H). inversion H as [| |n' e' pk h' s p sig' Hp R E]; subst. rewrite (proj2 (padding_kwarg_iff _ _) eq_refl). cbn [rbind].
    rewrite (proj2 (get_alg_iff _ _) Hh). cbn [rbind]. rewrite (proj2 (padding_named_iff (PStr s) p)) by eauto. cbn [rbind mat_sign].
    rewrite (proj2 (fits_iff n p h (named_padding _ _ Hp)) R). exact E.
  - intros H. apply rbind_ok in H as (? & Hk & H). destruct kw; [|discriminate]. destruct o as [d|]; [|discriminate].
    apply rbind_ok in H as (h & Hh & H). cbn [mat_sign] in H. injection H as <-. exists h. split; [apply get_alg_iff, Hh|constructor].
  - intros (h & Hh & H). inversion H; subst. cbn [no_kwargs rbind]. rewrite (proj2 (get_alg_iff _ _) Hh). reflexivity.
Qed.

(** ** C148 *)
Lemma ec_verified C c x y o h sig data :
  mat_verify C (KEC c x y o) sig data h None = Ok tt <-> verified C data (KEC c x y o) h [] sig.
Proof.
  cbn [mat_verify]. split.
  - destruct (der_parse sig) as [[r s]|] eqn:E; [|discriminate]. apply der_parse_inv in E. destruct (ec_sig_range c (r, s)) eqn:R; [|discriminate].
    cbn [andb]. destruct (c_ec_verify C c x y h (r, s) data) eqn:V; [|discriminate]. intros _. subst sig. unfold ec_sig_range in R. cbn [fst snd] in R. apply by_ec; auto; lia.
  - intros H. inversion H as [|? ? ? ? ? r s Hr Hs V|]; subst. pose proof (curve_order_bound c). destruct (der_rt r s) as [-> _]; [lia|lia|].
    unfold ec_sig_range. cbn [fst snd]. rewrite V. replace (_ && _)%bool with true by lia. reflexivity.
Qed.
Lemma mat_verify_ec_err C c x y o h sig data e : mat_verify C (KEC c x y o) sig data h None = Err e -> e = InvalidSignature.
Proof. cbn [mat_verify]. destruct (der_parse sig); [destruct (_ && _)%bool|]; congruence. Qed.
Lemma with_hash C data m h kw sig a : names_hash a h -> ((exists h, names_hash a h /\ verified C data m h kw sig) <-> verified C data m h kw sig).
Proof. intros Ha. split; [intros (h' & Ha' & H); rewrite (names_hash_det _ _ _ Ha Ha'); exact H|eauto]. Qed.
Lemma c148 C k sig data a kw : tells (verify_checks C (jmat k) sig data a kw) (key_verify C k sig data a kw).
Proof.
  unfold key_verify, verify_checks. destruct (jmat k) as [s|n e o|c x y o].
  - apply tells_bind; [errs1|apply tells_no_kwargs; discriminate|intros [] Hk]. destruct kw; [clear Hk|discriminate].
    apply tells_bind; [apply hash_errs|apply tells_get_alg|intros h Hh]. apply get_alg_iff in Hh. apply tells_pass; [exact I|].
    apply tells_pass; [intros ? ? ? ? ? ? E; discriminate|]. eapply tells_iff; [apply with_hash, Hh|]. apply tells_one; cbn [mat_verify].
    + destruct (eqs _ sig) eqn:E.
      * apply eqs_true in E. subst sig. split; [eauto|constructor].
      * split; [|intros (? & K); discriminate]. intros H. inversion H; subst. rewrite (proj2 (eqs_true _ _) eq_refl) in E. discriminate.
    + destruct (eqs _ sig); congruence.
  - apply tells_bind; [errs1|apply tells_padding_kwarg|intros v Hv]. apply padding_kwarg_iff in Hv. subst kw.
    apply tells_bind; [apply hash_errs|apply tells_get_alg|intros h Hh]. apply get_alg_iff in Hh.
    change ([?x; ?y; ?z]) with ([x] ++ [y; z]). apply tells_bind; [errs1|apply tells_padding_named|intros p Hp].
    apply padding_named_iff in Hp as (s & -> & Hp). cbn [mat_verify].
    apply (tells_iff _ (padding_fits n p h = true)); [rewrite (fits_iff n p h (named_padding _ _ Hp)); apply has_room_iff; auto|].
    destruct (padding_fits n p h) eqn:F; cbn [negb]; [|apply tells_fail; discriminate]. apply tells_pass; [reflexivity|].
    eapply tells_iff; [apply with_hash, Hh|]. apply tells_one.
    + destruct (c_rsa_verify C n e p h sig data) eqn:V.
      * split; [eauto|]. intros _. econstructor; eauto. apply fits_iff; [eapply named_padding; eauto|exact F].
      * split; [|intros (? & K); discriminate]. intros H. inversion H as [| |? ? ? ? s' p' ? Hp' R V' ]; subst. rewrite (padding_det _ _ _ Hp' Hp) in V'. congruence.
    + destruct (c_rsa_verify C n e p h sig data); congruence.
  - apply tells_bind; [errs1|apply tells_no_kwargs; discriminate|intros [] Hk]. destruct kw; [clear Hk|discriminate].
    apply tells_bind; [apply hash_errs|apply tells_get_alg|intros h Hh]. apply get_alg_iff in Hh. apply tells_pass; [exact I|].
    apply tells_pass; [intros ? ? ? ? ? ? E; discriminate|]. eapply tells_iff; [apply with_hash, Hh|]. apply tells_one; [|apply mat_verify_ec_err].
    rewrite <- ec_verified. split; [eauto|]. intros ([] & H). exact H.
Qed.
Lemma c148_errors C k sig data a kw e :
  decided (verify_checks C (jmat k) sig data a kw) None e <-> match key_verify C k sig data a kw with Ok _ => e = None | Err x => e = Some x end.
Proof. rewrite (c148 C k sig data a kw e). destruct (key_verify _ _ _ _ _ _); reflexivity. Qed.
Lemma c148_accepts C k sig data a kw :
  key_verify C k sig data a kw = Ok tt <-> exists h, names_hash a h /\ verified C data (jmat k) h kw sig.
Proof.
  split.
  - intros H. pose proof (c148 C k sig data a kw None) as K. rewrite H in K. cbn [raised] in K. apply proj2 in K. specialize (K eq_refl).
    unfold verify_checks in K. rewrite decided_app in K by errs1. destruct K as [[_ K]|[K _]]; [|congruence].
    rewrite decided_app in K by apply hash_errs. destruct K as [[_ K]|[K _]]; [|congruence]. cbn [decided] in K.
    destruct K as [[_ K]|[_ K]]; [|discriminate]. destruct K as [[_ K]|[_ K]]; [|discriminate]. destruct K as [[K _]|[_ K]]; [exact K|discriminate].
  - intros (h & Hh & H). unfold key_verify. pose proof (proj2 (get_alg_iff _ _) Hh) as Eh. inversion H as [s h' Em Eh' Ek|c x y o h' r s Hr Hs V Em|n e o h' s p sig' Hp R V Em]; subst.
    + cbn [no_kwargs rbind]. rewrite Eh. cbn [rbind mat_verify]. rewrite (proj2 (eqs_true _ _) eq_refl). reflexivity.
    + cbn [no_kwargs rbind]. rewrite Eh. cbn [rbind]. apply ec_verified. rewrite Em. exact H.
    + rewrite (proj2 (padding_kwarg_iff _ _) eq_refl). cbn [rbind]. rewrite Eh. cbn [rbind]. rewrite (proj2 (padding_named_iff (PStr s) p)) by eauto. cbn [rbind mat_verify].
      rewrite (proj2 (fits_iff n p h (named_padding _ _ Hp)) R), V. reflexivity.
Qed.
Lemma c148_roundtrip C rand k k' data a kw sig : jmat k' = jmat k \/ jmat k' = public_part (jmat k) -> backend_correct C (jmat k) ->
  key_sign C rand k data a kw = Ok sig -> key_verify C k' sig data a kw = Ok tt.
Proof.
  intros Hm Hb H. apply c147_signature in H as (h & Hh & H). apply c148_accepts. exists h. split; [exact Hh|].
  inversion H as [s h' Em|c x y d h' Em|n e pk h' s p sig' Hp R E Em]; subst; rewrite <- Em in *; cbn [public_part] in Hm; cbn [backend_correct] in Hb.
  - destruct Hm as [-> | ->]; constructor.
  - destruct (Hb rand h data) as (r & s & -> & Hr & Hs & V). destruct Hm as [-> | ->]; constructor; auto.
  - destruct (Hb _ _ _ _ _ E) as (_ & V). destruct Hm as [-> | ->]; econstructor; eauto.
Qed.

(** The algorithms of jwa/jws.py call the key with the name of their hash and, for RSA, of their padding (105-246). *)
Definition alg_args (a : alg) : hash_arg * pdict :=
  (Given (PStr match alg_hash a with SHA256 => lit "SHA256" | SHA384 => lit "SHA384" | SHA512 => lit "SHA512" end),
   match a with RS _ => padding_arg (PStr (lit "PKCS1v15")) | PS _ => padding_arg (PStr (lit "PSS")) | _ => [] end).
Lemma alg_call C rand a k data sig : a <> Anone -> alg_fits a (jmat k) ->
  key_sign C rand k data (fst (alg_args a)) (snd (alg_args a)) = mat_sign C rand (jmat k) data (alg_hash a) (alg_padding a) /\
  key_verify C k sig data (fst (alg_args a)) (snd (alg_args a)) = mat_verify C (jmat k) sig data (alg_hash a) (alg_padding a).
Proof.
  intros Ha F. unfold key_sign, key_verify. destruct a as [|h|h|h|h]; try congruence; destruct (jmat k) as [s|n e [o|]|c x y [o|]]; try (exfalso; exact F); destruct h; split; reflexivity.
Qed.
