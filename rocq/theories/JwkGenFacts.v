(** Proofs of C137 and C138. *)
From Coq Require Import String Ascii List NArith ZArith Bool Lia ZifyBool.
From Verif Require Import Base BaseFacts SpecPy PyFacts SpecCodec Webtools WebtoolsFacts Crypto RefCrypto Jwk JwkFacts JwkGen SpecKey SpecJws JwsFacts SpecReaders JoseErrFacts SpecJwkErr JwkErrFacts KeySetFacts SpecJwkGen.
Import ListNotations.
Open Scope N_scope.

Section Gen.
Variables (C : crypto) (G : generator).
Hypothesis Hs : sound C G.

Lemma curve_of_names s c : curve_of s = Some c <-> exists name, In (name, c) curves /\ s = chars name.
Proof.
  unfold curve_of, curves. change chars with lit. split.
  - destruct (eqs_spec s (lit "P-256")); [intros [= <-]; eexists; split; [left; reflexivity|auto]|].
    destruct (eqs_spec s (lit "P-384")); [intros [= <-]; eexists; split; [right; left; reflexivity|auto]|].
    destruct (eqs_spec s (lit "P-521")); [intros [= <-]; eexists; split; [right; right; left; reflexivity|auto]|]. discriminate.
  - intros (name & [[= <- <-]|[[= <- <-]|[[= <- <-]|[]]]] & ->); reflexivity.
Qed.
Lemma oct_made z : (32 <= z)%Z -> oct_generate z (g_bytes G z) = Ok (KOct (g_bytes G z)).
Proof. intros H. unfold oct_generate. replace (z <? 32)%Z with false by lia. apply oct_reload. apply Hs. Qed.
Lemma rsa_made z n k : (512 <= z)%Z -> g_rsa G z = Ok (n, k) -> rsa_generate C z n 65537 k = Ok (KRSA n 65537 (Some k)).
Proof.
  intros H Hg. unfold rsa_generate. replace (z <? 512)%Z with false by lia. destruct Hs as (_ & _ & S & _). destruct (S _ _ _ Hg) as [Hp Hk].
  apply rsa_public_spec in Hp. apply rsa_reload; auto.
Qed.
Lemma ec_made s c x y d : curve_of s = Some c -> g_ec G c = (x, y, d) -> ec_generate C s x y d = Ok (KEC c x y (Some d)).
Proof.
  intros Hc Hg. unfold ec_generate. rewrite Hc. destruct Hs as (_ & _ & _ & _ & S). destruct (S _ _ _ _ Hg) as (Hp & Hk & Hx & Hy).
  apply on_curve_spec in Hp.
  assert (s = curve_name c) as -> by (apply curve_of_names in Hc as (name & [[= <- <-]|[[= <- <-]|[[= <- <-]|[]]]] & ->); reflexivity).
  apply ec_reload; auto.
Qed.

(** ** The checks *)
Lemma tells_skip {A} (P : Prop) l l' (r : result A) : ~ P -> tells l' r -> tells (only_if P l ++ l') r.
Proof. intros H T. induction l as [|[Q w] l IH]; cbn [only_if map app]; [exact T|]. apply tells_pass; [cbn [fst]; tauto|exact IH]. Qed.
Lemma only_if_true (P : Prop) l : P -> Forall2 (fun a b : check => (fst a <-> fst b) /\ snd a = snd b) (only_if P l) l.
Proof. intros H. induction l as [|[Q w] l IH]; cbn [only_if map]; constructor; auto. cbn. tauto. Qed.
Lemma tells_equiv {A} l l' (r : result A) : Forall2 (fun a b : check => (fst a <-> fst b) /\ snd a = snd b) l l' -> tells l' r -> tells l r.
Proof.
  intros F T v. rewrite <- (T v). clear T. induction F as [|[P w] [Q w'] l l' [E1 E2] F IH]; cbn [decided]; [reflexivity|]. cbn [fst snd] in *. subst. rewrite IH. tauto.
Qed.
Lemma tells_take {A} (P : Prop) l (r : result A) : P -> tells l r -> tells (only_if P l) r.
Proof. intros H. apply tells_equiv. apply only_if_true, H. Qed.
Lemma errs_only' P l : errs l -> errs (only_if P l).
Proof. apply errs_only. Qed.
Lemma errs_size m v : errs (size_checks m v).
Proof. repeat constructor; discriminate. Qed.
Lemma tells_size m v : ~ false_value v ->
  tells (size_checks m v) (let! z := option_size v in if (z <? m)%Z then Err InvalidKey else Ok z).
Proof.
  intros F. unfold size_checks. destruct v as [|b|z|s|s|l|d]; cbn [option_size rbind].
  - destruct F. constructor.
  - do 2 (apply tells_pass; [try split; try split; discriminate|]). destruct b; [|destruct F; constructor].
    destruct (Z.ltb_spec 1 m); [apply tells_fail|apply tells_pass; [|apply tells_nil]].
    + intros (z & W & L). inversion W; subst. lia. + exists 1%Z. split; [constructor|lia].
  - do 2 (apply tells_pass; [try split; try split; discriminate|]).
    destruct (Z.ltb_spec z m); [apply tells_fail|apply tells_pass; [|apply tells_nil]].
    + intros (z' & W & L). inversion W; subst. lia. + exists z. split; [constructor|lia].
  - apply tells_pass; [try split; try split; discriminate|]. apply tells_fail. intros H. apply (H s). reflexivity.
  - apply tells_fail. intros (H & _). apply (H s). reflexivity.
  - apply tells_fail. intros (_ & H & _). apply (H l). reflexivity.
  - apply tells_fail. intros (_ & _ & H). apply (H d). reflexivity.
Qed.
Lemma size_ok m v z : (let! z := option_size v in if (z <? m)%Z then Err InvalidKey else Ok z) = Ok z -> (1 < m)%Z -> v = PInt z /\ (m <= z)%Z.
Proof.
  destruct v as [|b|i|s|s|l|d]; cbn [option_size rbind]; try discriminate.
  - destruct b; intros H Hm; [replace (1 <? m)%Z with true in H by lia|replace (0 <? m)%Z with true in H by lia]; discriminate.
  - destruct (Z.ltb_spec i m); [discriminate|]. intros [= ->] _. auto.
Qed.
(** The three classes *)
Definition class_checks (algorithm : str) (option : pyval) : list check := tl (generate_checks G algorithm option).
Lemma rsa_asked v z z' : asks (chars "RSA") v (AskRSA z) -> asks (chars "RSA") v (AskRSA z') -> z = z'.
Proof.
  intros H1 H2. inversion H1; subst; inversion H2; subst; auto; match goal with H : false_value (PInt ?i) |- _ => inversion H; subst; lia end.
Qed.
Lemma tells_skip_all {A} (P : Prop) l (a : A) : ~ P -> tells (only_if P l) (Ok a).
Proof. intros H. rewrite <- (app_nil_r (only_if P l)). apply tells_skip; auto. apply tells_nil. Qed.
Definition rsa_mat (nk : N * rsa_priv) : kmat := KRSA (fst nk) 65537 (Some (snd nk)).
Lemma tells_rsa v z l : asks (chars "RSA") v (AskRSA z) ->
  tells (only_if (chars "RSA" = chars "RSA") [(exists z n k, asks (chars "RSA") v (AskRSA z) /\ g_rsa G z = Ok (n, k), Some ValueError)] ++
         only_if (chars "RSA" = chars "EC") l) (rmap rsa_mat (g_rsa G z)).
Proof.
  intros Ha. cbn [only_if map app fst snd]. destruct (g_rsa G z) as [[n k]|e] eqn:Eg; cbn [rmap].
  - apply tells_pass; [intros _; eauto|]. apply tells_skip_all. discriminate.
  - assert (e = ValueError) as -> by (destruct Hs as (_ & _ & _ & S & _); eapply S; eauto). apply tells_fail. intros H.
    destruct (H eq_refl) as (z' & n & k & Ha' & Hg). rewrite (rsa_asked _ _ _ Ha' Ha) in Hg. congruence.
Qed.
Lemma rsa_answers v z m : asks (chars "RSA") v (AskRSA z) ->
  (rmap rsa_mat (g_rsa G z) = Ok m <-> exists a, asks (chars "RSA") v a /\ answers G a m).
Proof.
  intros Ha. split.
  - intros H. exists (AskRSA z). split; auto. cbn [answers]. destruct (g_rsa G z) as [[n k]|]; [|discriminate]. injection H as <-. eauto.
  - intros (a & Ha' & An). assert (E : exists z', a = AskRSA z') by (inversion Ha'; subst; try discriminate; eauto). destruct E as (z' & ->).
    rewrite (rsa_asked _ _ _ Ha' Ha) in An. destruct An as (n & k & -> & ->). reflexivity.
Qed.
Lemma tells_class algorithm v : In algorithm [chars "oct"; chars "RSA"; chars "EC"] ->
  tells (class_checks algorithm v) (class_generate C G algorithm v) /\
  forall m, (class_generate C G algorithm v = Ok m <-> exists a, asks algorithm v a /\ answers G a m).
Proof.
  intros Hin. unfold class_checks, generate_checks. cbn [app tl].
  destruct Hin as [<-|[<-|[<-|[]]]]; unfold class_generate.
  - change (eqs (chars "oct") (lit "oct")) with true. cbv iota. destruct (truthy v) eqn:T.
    + assert (F : ~ false_value v) by (apply true_spec, T).
      assert (E : (let! size := option_size v in oct_generate size (g_bytes G size)) =
        (let! z := (let! z := option_size v in if (z <? 32)%Z then Err InvalidKey else Ok z) in Ok (KOct (g_bytes G z)))).
      { destruct (option_size v) as [z|]; cbn [rbind]; auto. destruct (Z.ltb_spec z 32); cbn [rbind].
        - unfold oct_generate. replace (z <? 32)%Z with true by lia. reflexivity.
        - apply oct_made; auto. }
      rewrite E. split.
      * apply tells_bind; [apply errs_only', errs_size|apply tells_take; [split; auto|apply tells_size; auto]|]. intros z _.
        apply tells_skip; [intros [H _]; discriminate|]. apply tells_skip; [discriminate|]. apply tells_skip_all. discriminate.
      * intros m. split.
        -- intros H. apply BaseFacts.rbind_ok in H as (z & H & [= <-]). apply size_ok in H as [-> H]; [|lia]. exists (AskOct z). split; [constructor; auto|reflexivity].
        -- intros (a & Ha & An). inversion Ha as [z Hz|w Hw|z Hz|w Hw|? ? Hz]; subst; try discriminate; try contradiction. cbn [option_size rbind].
           replace (z <? 32)%Z with false by lia. cbn [rbind]. rewrite An. reflexivity.
    + assert (F : false_value v) by (apply false_spec, T). cbn [rbind]. rewrite oct_made by lia. split.
      * do 2 (apply tells_skip; [intros [H ?]; tauto|]). apply tells_skip; [discriminate|]. apply tells_skip_all. discriminate.
      * intros m. split.
        -- intros [= <-]. exists (AskOct 32). split; [constructor; auto|reflexivity].
        -- intros (a & Ha & An). inversion Ha as [z Hz|w Hw|z Hz|w Hw|? ? Hz]; subst; try discriminate.
           ++ inversion F; subst. lia. ++ rewrite An. reflexivity.
  - change (eqs (chars "RSA") (lit "oct")) with false. change (eqs (chars "RSA") (lit "RSA")) with true. cbv iota. destruct (truthy v) eqn:T.
    + assert (F : ~ false_value v) by (apply true_spec, T).
      assert (E : (let! size := option_size v in if (size <? 512)%Z then Err InvalidKey else let! (n, k) := g_rsa G size in rsa_generate C size n 65537 k) =
        (let! z := (let! z := option_size v in if (z <? 512)%Z then Err InvalidKey else Ok z) in rmap rsa_mat (g_rsa G z))).
      { destruct (option_size v) as [z|]; cbn [rbind]; auto. destruct (Z.ltb_spec z 512); cbn [rbind]; auto.
        destruct (g_rsa G z) as [[n k]|e] eqn:Eg; cbn [rbind rmap fst snd]; auto. apply rsa_made; auto. }
      rewrite E. split.
      * apply tells_skip; [intros [H _]; discriminate|].
        apply tells_bind; [apply errs_only', errs_size|apply tells_take; [split; auto|apply tells_size; auto]|]. intros z Hz. apply size_ok in Hz as [-> Hz]; [|lia].
        apply tells_rsa. constructor; auto.
      * intros m. split.
        -- intros H. apply BaseFacts.rbind_ok in H as (z & H & Hr). apply size_ok in H as [-> H]; [|lia]. apply (rsa_answers _ z); auto. constructor; auto.
        -- intros (a & Ha & An). inversion Ha as [z Hz|w Hw|z Hz|w Hw|? ? Hz]; subst; try discriminate; try contradiction. cbn [option_size rbind].
           replace (z <? 512)%Z with false by lia. cbn [rbind]. destruct An as (n & k & -> & ->). reflexivity.
    + assert (F : false_value v) by (apply false_spec, T). cbn [rbind]. change (2048 <? 512)%Z with false. cbv iota.
      assert (E : (let! (n, k) := g_rsa G 2048 in rsa_generate C 2048 n 65537 k) = rmap rsa_mat (g_rsa G 2048)).
      { destruct (g_rsa G 2048) as [[n k]|e] eqn:Eg; cbn [rbind rmap fst snd]; auto. apply rsa_made; auto. lia. }
      rewrite E. assert (Ha : asks (chars "RSA") v (AskRSA 2048)) by (constructor; auto). split.
      * do 2 (apply tells_skip; [intros [H ?]; tauto|]). apply tells_rsa. exact Ha.
      * intros m. apply rsa_answers. exact Ha.
  - change (eqs (chars "EC") (lit "oct")) with false. change (eqs (chars "EC") (lit "RSA")) with false. cbv iota.
    assert (K : forall r, (forall m : kmat, r <> Ok m) -> (forall s, v = PStr s -> curve_of s = None) -> forall m, r = Ok m <-> exists a, asks (chars "EC") v a /\ answers G a m).
    { intros r Hr Hc m. split; [intros H; destruct (Hr _ H)|]. intros (a & Ha & _). inversion Ha as [z Hz|w Hw|z Hz|w Hw|name c Hz]; subst; try discriminate.
      assert (curve_of (chars name) = Some c) by (apply curve_of_names; eauto). rewrite (Hc _ eq_refl) in *. discriminate. }
    assert (Tl : forall r, tells [(~ false_value v /\ (forall l, v <> PList l) /\ (forall d, v <> PDict d), Some TypeError);
        (exists name c, In (name, c) curves /\ v = PStr (chars name), Some InvalidKey)] r -> tells (only_if (chars "EC" = chars "oct" /\ ~ false_value v) (size_checks 32 v) ++
        only_if (chars "EC" = chars "RSA" /\ ~ false_value v) (size_checks 512 v) ++ only_if (chars "EC" = chars "RSA")
        [(exists z n k, asks (chars "EC") v (AskRSA z) /\ g_rsa G z = Ok (n, k), Some ValueError)] ++
        only_if (chars "EC" = chars "EC") [(~ false_value v /\ (forall l, v <> PList l) /\ (forall d, v <> PDict d), Some TypeError);
        (exists name c, In (name, c) curves /\ v = PStr (chars name), Some InvalidKey)]) (r : result kmat)).
    { intros r Tr. do 2 (apply tells_skip; [intros [H ?]; discriminate|]). apply tells_skip; [discriminate|]. apply tells_take; auto. }
    destruct (truthy v) eqn:T.
    + assert (F : ~ false_value v) by (apply true_spec, T).
      assert (N : forall s, (forall l, PStr s <> PList l) /\ (forall d, PStr s <> PDict d)) by (split; discriminate).
      destruct v as [|b|z|s|s|l|d]; cbn [hashable]; try (split; [apply Tl|apply K; [congruence|congruence]]).
      * apply tells_pass; [split; [|split]; [auto|discriminate|discriminate]|]. apply tells_fail. intros (? & ? & _ & ?). discriminate.
      * apply tells_pass; [split; [|split]; [auto|discriminate|discriminate]|]. apply tells_fail. intros (? & ? & _ & ?). discriminate.
      * apply tells_pass; [split; [|split]; [auto|discriminate|discriminate]|]. apply tells_fail. intros (? & ? & _ & ?). discriminate.
      * apply tells_pass; [split; [|split]; [auto|discriminate|discriminate]|]. apply tells_fail. intros (? & ? & _ & ?). discriminate.
      * destruct (curve_of s) as [c|] eqn:Ec.
        -- destruct (g_ec G c) as [[x y] d] eqn:Eg. rewrite (ec_made _ _ _ _ _ Ec Eg). split.
           ++ apply Tl. apply tells_pass; [split; auto|]. apply tells_pass; [|apply tells_nil]. apply curve_of_names in Ec as (name & H & ->). eauto.
           ++ intros m. split.
              ** intros [= <-]. exists (AskEC c). apply curve_of_names in Ec as (name & H & ->). split; [constructor; auto|]. cbn [answers]. eauto 6.
              ** intros (a & Ha & An). inversion Ha as [z Hz|w Hw|z Hz|w Hw|name c' Hz]; subst; try discriminate.
                 assert (curve_of (chars name) = Some c') by (apply curve_of_names; eauto). assert (c' = c) as -> by congruence.
                 destruct An as (x' & y' & d' & Eg' & ->). rewrite Eg in Eg'. congruence.
        -- split; [apply Tl|apply K; [congruence|congruence]]. apply tells_pass; [split; auto|]. apply tells_fail.
           intros (name & c & H & E). injection E as ->. assert (curve_of (chars name) = Some c) by (apply curve_of_names; eauto). congruence.
      * apply tells_fail. intros (_ & H & _). apply (H l). reflexivity.
      * apply tells_fail. intros (_ & _ & H). apply (H d). reflexivity.
    + assert (F : false_value v) by (apply false_spec, T). split; [apply Tl|apply K; [congruence|]].
      * apply tells_fail. tauto.
      * intros s ->. inversion F; subst. reflexivity.
Qed.

(** ** The whole *)
Lemma types_in algorithm : ins algorithm key_types = true <-> In algorithm [chars "oct"; chars "RSA"; chars "EC"].
Proof. apply ins_In. Qed.
Lemma asked_mat algorithm v a m : asks algorithm v a -> answers G a m -> wf_mat C m /\ nonzero_coords m /\ has_private m = true /\ incl (key_members m) key_names.
Proof.
  intros Ha An. destruct Hs as (S1 & S2 & S3 & S4 & S5). destruct a; cbn [answers] in An.
  - subst. split; [apply S1|]. split; [exact I|]. split; [reflexivity|]. intros x [<-|[]]. vm_compute. tauto.
  - destruct An as (n & k & Hg & ->). destruct (S3 _ _ _ Hg) as [Hp Hk]. apply rsa_public_spec in Hp. split; [split; auto|]. split; [exact I|]. split; [reflexivity|].
    intros x Hx. revert Hx. vm_compute. tauto.
  - destruct An as (x & y & d & Hg & ->). destruct (S5 _ _ _ _ Hg) as (Hp & Hk & Hx & Hy). apply on_curve_spec in Hp. split; [split; auto|]. split; [split; auto|]. split; [reflexivity|].
    intros z Hz. revert Hz. vm_compute. tauto.
Qed.
Lemma generate_data m params k : NoDup (keys params) -> jwk_generate C (Ok m) params = Ok k ->
  forall x, ~ In x key_names -> dget x (jdata k) = dget x params.
Proof.
  intros Hn H x Hx. unfold jwk_generate in H. cbn [rbind] in H. apply BaseFacts.rbind_ok in H as (d & Hd & H).
  destruct (mat_dump_keys m false d Hd) as (Nd & Kd & Fd & Pd).
  apply c15 in H as (d' & E & _ & ->). injection E as <-.
  assert (Nu : NoDup (keys (dupdate d params))) by (apply dupdate_NoDup; auto).
  rewrite without_none_full, dget_full by (apply full_NoDup; auto). unfold FullDict. rewrite dget_full by auto.
  unfold dget. rewrite lookup_dupdate, lookup_rev by auto. destruct (lookup x params); auto.
  replace (lookup x d) with (@None pyval); auto. symmetry. apply lookup_None. intros Hi. rewrite Forall_forall in Fd.
  apply Hx. apply Fd in Hi as [->|Hi]; [vm_compute; tauto|]. revert Hi. destruct m; vm_compute; tauto.
Qed.
Theorem c137 algorithm v params : extra params ->
  (forall m, (exists k, key_generate C G algorithm v params = Ok k /\ jmat k = m) <-> exists a, asks algorithm v a /\ answers G a m) /\
  (forall k x, key_generate C G algorithm v params = Ok k -> ~ In x key_names -> dget x (jdata k) = dget x params) /\
  (forall err, decided (generate_checks G algorithm v) None err <-> match key_generate C G algorithm v params with Ok _ => err = None | Err x => err = Some x end).
Proof.
  intros [Hn Hx]. unfold key_generate.
  destruct (ins algorithm key_types) eqn:Et; cbn [negb].
  2:{ assert (Hni : ~ In algorithm [chars "oct"; chars "RSA"; chars "EC"]) by (intros H; apply types_in in H; congruence).
      split; [|split]; [|discriminate|].
      - intros m. split; [intros (k & [=] & _)|]. intros (a & Ha & _). destruct Hni. inversion Ha; subst; vm_compute; tauto.
      - intros err. cbn [generate_checks app decided]. tauto. }
  apply types_in in Et. destruct (tells_class algorithm v Et) as [T A].
  assert (Mk : forall m, class_generate C G algorithm v = Ok m -> exists k, jwk_generate C (Ok m) params = Ok k /\ jmat k = m).
  { intros m Hm. apply A in Hm as (a & Ha & An). destruct (asked_mat _ _ _ _ Ha An) as (H1 & H2 & H3 & H4).
    destruct (jwk_generate_ok C m params H1 H2 H3 Hn) as (k & K1 & K2 & _); [|eauto].
    intros x Hi. apply Hx in Hi. split; [|split]; [intros ->; apply Hi; vm_compute; tauto|intros ->; apply Hi; vm_compute; tauto|]. intros H. apply Hi, H4, H. }
  split; [|split].
  - intros m. rewrite <- A. destruct (class_generate C G algorithm v) as [m'|e] eqn:Ec.
    + destruct (Mk _ eq_refl) as (k & -> & <-). split; [intros (k' & [= <-] & <-); auto|]. intros [= <-]. eauto.
    + split; [intros (k & H & _)|]; discriminate.
  - intros k x Hk. destruct (class_generate C G algorithm v) as [m'|e] eqn:Ec; [|discriminate]. eapply generate_data; eauto.
  - intros err. assert (T' : tells (generate_checks G algorithm v) (class_generate C G algorithm v)).
    { change (generate_checks G algorithm v) with ((In algorithm [chars "oct"; chars "RSA"; chars "EC"], Some UnsupportedAlgorithm) :: class_checks algorithm v).
      apply tells_pass; auto. }
    rewrite (T' err). destruct (class_generate C G algorithm v) as [m'|e] eqn:Ec; cbn [raised].
    + destruct (Mk _ eq_refl) as (k & -> & _). reflexivity.
    + reflexivity.
Qed.
Theorem c137_length v params k : extra params -> key_generate C G (chars "oct") v params = Ok k ->
  exists s, jmat k = KOct s /\ (32 <= List.length s)%nat /\ forall z, v = PInt z -> z <> 0%Z -> Z.of_nat (List.length s) = z.
Proof.
  intros Hx Hk. destruct (proj1 (proj1 (c137 (chars "oct") v params Hx) (jmat k)) (ex_intro _ k (conj Hk eq_refl))) as (a & Ha & An).
  destruct Hs as (_ & S2 & _). inversion Ha as [z Hz|w Hw|z Hz|w Hw|? ? Hz]; subst; try discriminate; cbn [answers] in An; rewrite An; eexists; (split; [reflexivity|]).
  - specialize (S2 z). split; [lia|]. intros z' [= <-] _. apply S2. lia.
  - specialize (S2 32%Z). split; [lia|]. intros z -> Hz. inversion Hw; subst; congruence.
Qed.
End Gen.

(** C138: a parameter named like a member of the key replaces what was generated. *)
Theorem c138 C G : sound C G -> exists params k, key_generate C G (chars "oct") (PInt 64) params = Ok k /\ jmat k = KOct (chars "weak").
Proof.
  intros Hs. exists [(lit "k", PStr (lit "d2Vhaw"))]. unfold key_generate. change (ins (chars "oct") key_types) with true. cbn [negb].
  unfold class_generate. change (eqs (chars "oct") (lit "oct")) with true. cbn [truthy option_size rbind]. change (negb (64 =? 0)%Z) with true. cbv iota. cbn [rbind].
  rewrite (oct_made C G Hs) by lia. unfold jwk_generate. cbn [rbind]. eexists. split; [reflexivity|]. reflexivity.
Qed.
