(** Proofs of C142. *)
From Coq Require Import String Ascii List NArith ZArith Bool Lia.
From Verif Require Import Base BaseFacts SpecCodec Base64 Base64Facts Webtools WebtoolsFacts Crypto Jwk JwkFacts JwkFile JwkGen SpecKey SpecReaders ReadB64Facts SpecJws JwsFacts JoseErrFacts SpecJwkErr JwkErrFacts SpecJwkGen JwkGenFacts SpecJwkParse.
Import ListNotations.
Open Scope N_scope.

Lemma says_iff w raw : contains (lit w) raw = true <-> says w raw.
Proof. apply contains_spec. Qed.
Lemma says_not w raw : contains (lit w) raw = false <-> ~ says w raw.
Proof. rewrite <- says_iff. destruct (contains _ _); split; congruence. Qed.
Lemma marked_iff raw : existsb (fun s => contains s raw) invalid_strings = false <-> forall m, In m markers -> ~ occurs m raw.
Proof.
  change invalid_strings with markers. split.
  - intros H m Hm Ho. assert (existsb (fun s => contains s raw) markers = true); [|congruence]. apply existsb_exists. exists m. split; auto. apply contains_spec, Ho.
  - intros H. destruct (existsb _ _) eqn:E; auto. apply existsb_exists in E as (m & Hm & Ho). destruct (H m Hm). apply contains_spec, Ho.
Qed.

Section Parse.
Variable C : crypto.
Hypothesis Hp : pem_sound C.

(** ** The three classes *)
Definition class_parse (raw : bytes) (algorithm format : str) : result kmat :=
  if eqs algorithm (lit "oct") then oct_parse raw format
  else if eqs algorithm (lit "RSA") then rsa_parse C raw format
  else if eqs algorithm (lit "EC") then ec_parse C raw format
  else Err UnsupportedAlgorithm.
Definition kind_checks raw algorithm : list check :=
  [(says "PRIVATE" raw \/ says "PUBLIC" raw, Some InvalidKey);
   (says "PRIVATE" raw -> exists k, c_pem_private C raw = Ok k, error_of (c_pem_private C raw));
   (~ says "PRIVATE" raw -> exists k, c_pem_public C raw = Ok k, error_of (c_pem_public C raw));
   (exists k, (says "PRIVATE" raw /\ c_pem_private C raw = Ok k /\ of_kind algorithm true k) \/
              (~ says "PRIVATE" raw /\ c_pem_public C raw = Ok k /\ of_kind algorithm false k), Some InvalidKey)].
Definition class_checks raw algorithm format : list check :=
  [(format = chars "pem" \/ (algorithm = chars "oct" /\ format = chars "der"), Some UnsupportedParsingMethod)] ++
  only_if (algorithm = chars "oct" /\ format = chars "pem")
    [(forall m, In m markers -> ~ occurs m raw, Some InvalidKey);
     (exists s, base64_text std_values raw s, Some BinasciiError)] ++
  only_if (algorithm <> chars "oct") (kind_checks raw algorithm).
(** The branch of RSAKey.parse and ECKey.parse for PEM *)
Definition pem_parse (make : bool -> pem_key -> result kmat) (raw : bytes) (format : str) : result kmat :=
  if eqs format (lit "pem") then
    if contains (lit "PRIVATE") raw then let! k := c_pem_private C raw in make true k
    else if contains (lit "PUBLIC") raw then let! k := c_pem_public C raw in make false k
    else Err InvalidKey
  else Err UnsupportedParsingMethod.
Lemma tells_pem make raw algorithm format : algorithm <> chars "oct" ->
  (forall b k, pem_fit C k -> (of_kind algorithm b k /\ exists m, make b k = Ok m) \/ (~ of_kind algorithm b k /\ make b k = Err InvalidKey)) ->
  tells (class_checks raw algorithm format) (pem_parse make raw format).
Proof.
  intros Ha Hm. unfold class_checks, pem_parse. cbn [app]. destruct (eqs format (lit "pem")) eqn:Ef.
  2:{ apply tells_fail. intros [->|[H _]]; [discriminate|auto]. }
  apply eqs_true in Ef as ->. apply tells_pass; [left; reflexivity|]. apply (tells_skip _ [_; _]); [tauto|]. apply tells_take; [exact Ha|]. unfold kind_checks.
  destruct (contains (lit "PRIVATE") raw) eqn:Ep.
  - apply says_iff in Ep. apply tells_pass; [left; exact Ep|]. destruct (c_pem_private C raw) as [k|e] eqn:Ek; cbn [rbind error_of].
    2:{ apply tells_fail. intros H. destruct (H Ep) as (k & E). discriminate. }
    apply tells_pass; [eauto|]. apply tells_pass; [tauto|]. destruct (Hm true k (Hp raw k (or_introl Ek))) as [(Hk & m & ->)|(Hk & ->)].
    + apply tells_pass; [|apply tells_nil]. exists k. auto.
    + apply tells_fail. intros (k' & [(_ & E & K)|(H & _)]); [|tauto]. injection E as <-. auto.
  - apply says_not in Ep. destruct (contains (lit "PUBLIC") raw) eqn:Eu.
    2:{ apply says_not in Eu. apply tells_fail. tauto. }
    apply says_iff in Eu. apply tells_pass; [right; exact Eu|]. apply tells_pass; [tauto|]. destruct (c_pem_public C raw) as [k|e] eqn:Ek; cbn [rbind error_of].
    2:{ apply tells_fail. intros H. destruct (H Ep) as (k & E). discriminate. }
    apply tells_pass; [eauto|]. destruct (Hm false k (Hp raw k (or_intror Ek))) as [(Hk & m & ->)|(Hk & ->)].
    + apply tells_pass; [|apply tells_nil]. exists k. auto.
    + apply tells_fail. intros (k' & [(H & _)|(_ & E & K)]); [tauto|]. injection E as <-. auto.
Qed.
Definition make_rsa (b : bool) (k : pem_key) : result kmat :=
  match b, k with
  | true, PemRSA n e (Some k) => RSAKey C (num_str n) (num_str e) (num_str (r_d k)) (num_str (r_p k)) (num_str (r_q k)) (num_str (r_dmp1 k)) (num_str (r_dmq1 k)) (num_str (r_iqmp k))
  | false, PemRSA n e _ => RSAKey C (num_str n) (num_str e) PNone PNone PNone PNone PNone PNone
  | _, _ => Err InvalidKey
  end.
Definition crv_val (c : option curve) : pyval := match c with Some c => PStr (curve_name c) | None => PNone end.
Definition make_ec (b : bool) (k : pem_key) : result kmat :=
  match b, k with
  | true, PemEC c x y (Some d) => ECKey C (crv_val c) (num_str x) (num_str y) (num_str d)
  | false, PemEC c x y _ => ECKey C (crv_val c) (num_str x) (num_str y) PNone
  | _, _ => Err InvalidKey
  end.
Lemma rsa_parse_eq raw format : rsa_parse C raw format = pem_parse make_rsa raw format.
Proof. reflexivity. Qed.
Lemma ec_parse_eq raw format : ec_parse C raw format = pem_parse make_ec raw format.
Proof. reflexivity. Qed.
Definition made (b : bool) (k : pem_key) : option kmat :=
  match b, k with
  | true, PemRSA n e (Some p) => Some (KRSA n e (Some p))
  | false, PemRSA n e _ => Some (KRSA n e None)
  | true, PemEC (Some c) x y (Some d) => Some (KEC c x y (Some d))
  | false, PemEC (Some c) x y _ => Some (KEC c x y None)
  | _, _ => None
  end.
Definition is_rsa (k : pem_key) : bool := match k with PemRSA _ _ _ => true | _ => false end.
Lemma make_rsa_eq b k : pem_fit C k -> make_rsa b k = if is_rsa k then of_opt InvalidKey (made b k) else Err InvalidKey.
Proof.
  intros F. destruct k as [n e o|c x y o|]; [|destruct b, o; reflexivity|destruct b; reflexivity]. destruct F as [F1 F2]. apply rsa_public_spec in F1.
  destruct b; [destruct o as [p|]; [|reflexivity]|]; cbn [make_rsa is_rsa made of_opt].
  - apply rsa_reload; auto.
  - destruct o; apply rsa_reload_public; auto.
Qed.
Lemma make_ec_eq b k : pem_fit C k -> make_ec b k = if is_rsa k then Err InvalidKey else of_opt InvalidKey (made b k).
Proof.
  intros F. destruct k as [n e o|c x y o|]; [destruct b, o; reflexivity| |destruct b; reflexivity].
  destruct c as [c|]; [|destruct b, o; reflexivity]. destruct F as (F1 & F2 & F3 & F4). apply on_curve_spec in F1.
  destruct b; [destruct o as [p|]; [|reflexivity]|]; cbn [make_ec is_rsa made of_opt crv_val].
  - apply ec_reload; auto.
  - destruct o; apply ec_reload_public; auto.
Qed.
Lemma kind_rsa b k : of_kind (chars "RSA") b k <-> exists m, (if is_rsa k then made b k else None) = Some m.
Proof.
  unfold of_kind. split.
  - intros [(_ & n & e & o & -> & H)|(H & _)]; [|discriminate]. cbn [is_rsa made]. destruct b; [destruct o as [p|]; [|destruct (H eq_refl eq_refl)]|]; eexists; reflexivity.
  - intros (m & H). destruct k as [n e o|c x y o|]; try discriminate. left. split; auto. exists n, e, o. split; auto. intros -> ->. discriminate.
Qed.
Lemma kind_ec b k : of_kind (chars "EC") b k <-> exists m, (if is_rsa k then None else made b k) = Some m.
Proof.
  unfold of_kind. split.
  - intros [(H & _)|(_ & c & x & y & o & -> & H)]; [discriminate|]. cbn [is_rsa made]. destruct b; [destruct o as [p|]; [|destruct (H eq_refl eq_refl)]|]; eexists; reflexivity.
  - intros (m & H). destruct k as [n e o|c x y o|]; try (destruct b; discriminate). destruct c as [c|]; [|destruct b; discriminate]. right. split; auto. exists c, x, y, o. split; auto. intros -> ->. discriminate.
Qed.
Lemma rbind_ret {A} (r : result A) : (let! x := r in Ok x) = r.
Proof. destruct r; reflexivity. Qed.
Lemma b64decode_err t e : b64decode t = Err e -> e = BinasciiError.
Proof. unfold b64decode. apply a2b_err. Qed.
Lemma tells_class_parse raw algorithm format : bytes_ok raw -> In algorithm [chars "oct"; chars "RSA"; chars "EC"] ->
  tells (class_checks raw algorithm format) (class_parse raw algorithm format).
Proof.
  intros Hb [<-|[<-|[<-|[]]]].
  - change (class_parse raw (chars "oct") format) with (oct_parse raw format). unfold class_checks, oct_parse. cbn [app].
    destruct (eqs format (lit "pem")) eqn:Ef.
    + apply eqs_true in Ef as ->. apply tells_pass; [left; reflexivity|].
      match goal with |- tells _ ?r => rewrite <- (rbind_ret r) end. apply tells_bind; [repeat constructor; discriminate| |intros m _; apply tells_skip_all; tauto].
      apply tells_take; [split; reflexivity|]. destruct (existsb _ _) eqn:E.
      { apply tells_fail. intros H. apply marked_iff in H. congruence. }
      apply tells_pass; [apply marked_iff; exact E|]. destruct (b64decode raw) as [s|e] eqn:Es; cbn [rbind].
      * rewrite oct_reload by (eapply b64decode_bytes_ok; eauto). apply tells_pass; [exists s; apply b64decode_iff; exact Es|apply tells_nil].
      * rewrite (b64decode_err _ _ Es). apply tells_fail. intros (s & H). apply b64decode_iff in H. congruence.
    + destruct (eqs format (lit "der")) eqn:Ed.
      * apply eqs_true in Ed as ->. apply tells_pass; [right; split; reflexivity|]. apply (tells_skip _ [_; _]); [intros [_ H]; discriminate|].
        rewrite oct_reload by exact Hb. apply tells_skip_all. tauto.
      * apply tells_fail. intros [->|[_ ->]]; discriminate.
  - change (class_parse raw (chars "RSA") format) with (rsa_parse C raw format). rewrite rsa_parse_eq. apply tells_pem; [discriminate|].
    intros b k F. rewrite make_rsa_eq, kind_rsa by auto. destruct (is_rsa k); [destruct (made b k)|]; cbn [of_opt]; eauto; right; split; auto; intros (? & ?); discriminate.
  - change (class_parse raw (chars "EC") format) with (ec_parse C raw format). rewrite ec_parse_eq. apply tells_pem; [discriminate|].
    intros b k F. rewrite make_ec_eq, kind_ec by auto. destruct (is_rsa k); [|destruct (made b k)]; cbn [of_opt]; eauto; right; split; auto; intros (? & ?); discriminate.
Qed.
(** What is read *)
Lemma pem_parse_ok make raw format m : (forall b k m, make b k = Ok m -> pem_fit C k -> made b k = Some m) -> pem_parse make raw format = Ok m ->
  format = chars "pem" /\ exists b k, made b k = Some m /\ make b k = Ok m /\
    if b then says "PRIVATE" raw /\ c_pem_private C raw = Ok k else ~ says "PRIVATE" raw /\ says "PUBLIC" raw /\ c_pem_public C raw = Ok k.
Proof.
  intros Hm. unfold pem_parse. destruct (eqs format (lit "pem")) eqn:Ef; [|discriminate]. apply eqs_true in Ef. intros H. split; [exact Ef|].
  destruct (contains (lit "PRIVATE") raw) eqn:Ep.
  - apply BaseFacts.rbind_ok in H as (k & Hk & H). exists true, k. split; [apply Hm; auto; eapply Hp; eauto|]. split; auto. split; auto. apply says_iff, Ep.
  - destruct (contains (lit "PUBLIC") raw) eqn:Eu; [|discriminate].
    apply BaseFacts.rbind_ok in H as (k & Hk & H). exists false, k. split; [apply Hm; auto; eapply Hp; eauto|]. split; auto. split; [apply says_not, Ep|]. split; [apply says_iff, Eu|]. exact Hk.
Qed.
Lemma class_parse_iff raw algorithm format m : bytes_ok raw -> In algorithm [chars "oct"; chars "RSA"; chars "EC"] ->
  (class_parse raw algorithm format = Ok m <-> reads C raw algorithm format m).
Proof.
  intros Hb Ha. split.
  - destruct Ha as [<-|[<-|[<-|[]]]].
    + change (class_parse raw (chars "oct") format) with (oct_parse raw format). unfold oct_parse. intros H.
      destruct (eqs format (lit "pem")) eqn:Ef.
      * apply eqs_true in Ef as ->. destruct (existsb _ _) eqn:E; [discriminate|]. apply BaseFacts.rbind_ok in H as (s & Hs & H).
        rewrite oct_reload in H by (eapply b64decode_bytes_ok; eauto). injection H as <-. apply reads_oct; [apply marked_iff; exact E|apply b64decode_iff; exact Hs].
      * destruct (eqs format (lit "der")) eqn:Ed; [|discriminate]. apply eqs_true in Ed as ->. rewrite oct_reload in H by exact Hb. injection H as <-. constructor.
    + change (class_parse raw (chars "RSA") format) with (rsa_parse C raw format). rewrite rsa_parse_eq. intros H.
      apply pem_parse_ok in H as (-> & b & k & Hm & Hk & H).
      2:{ intros b k m' H' F. rewrite make_rsa_eq in H' by auto. destruct (is_rsa k); [|discriminate]. destruct (made b k); [|discriminate]. cbn in H'. congruence. }
      destruct k as [n e o|c x y o|]; [|destruct b; discriminate..]. destruct b.
      * destruct o as [p|]; [|discriminate]. injection Hm as <-. destruct H. constructor; auto.
      * assert (m = KRSA n e None) as -> by (destruct o; cbn in Hm; congruence). destruct H as (? & ? & ?). econstructor; eauto.
    + change (class_parse raw (chars "EC") format) with (ec_parse C raw format). rewrite ec_parse_eq. intros H.
      apply pem_parse_ok in H as (-> & b & k & Hm & Hk & H).
      2:{ intros b k m' H' F. rewrite make_ec_eq in H' by auto. destruct (is_rsa k); [discriminate|]. destruct (made b k); [|discriminate]. cbn in H'. congruence. }
      destruct k as [n e o|c x y o|]; [destruct b; discriminate| |destruct b; discriminate]. destruct c as [c|]; [|destruct b, o; discriminate]. destruct b.
      * destruct o as [p|]; [|discriminate]. injection Hm as <-. destruct H. constructor; auto.
      * assert (m = KEC c x y None) as -> by (destruct o; cbn in Hm; congruence). destruct H as (? & ? & ?). econstructor; eauto.
  - assert (Q : forall make b k, (if b : bool then says "PRIVATE" raw /\ c_pem_private C raw = Ok k else ~ says "PRIVATE" raw /\ says "PUBLIC" raw /\ c_pem_public C raw = Ok k) ->
      pem_parse make raw (chars "pem") = make b k /\ pem_fit C k).
    { intros make b k H. unfold pem_parse. change (eqs (chars "pem") (lit "pem")) with true. cbv iota. destruct b.
      - destruct H as [H1 H2]. apply says_iff in H1. rewrite H1, H2. split; auto. eapply Hp; eauto.
      - destruct H as (H1 & H2 & H3). apply says_not in H1. apply says_iff in H2. rewrite H1, H2, H3. split; auto. eapply Hp; eauto. }
    intros H. inversion H as [s H1 H2|H1|n e p H1 H2|n e o H1 H2 H3|c x y d H1 H2|c x y o H1 H2 H3]; subst; clear H.
    + change (class_parse raw (chars "oct") (chars "pem")) with (oct_parse raw (lit "pem")). unfold oct_parse. change (eqs (lit "pem") (lit "pem")) with true. cbv iota.
      apply marked_iff in H1. rewrite H1. apply b64decode_iff in H2. rewrite H2. cbn [rbind]. apply oct_reload. eapply b64decode_bytes_ok; eauto.
    + change (class_parse raw (chars "oct") (chars "der")) with (oct_parse raw (lit "der")). unfold oct_parse. change (eqs (lit "der") (lit "pem")) with false.
      change (eqs (lit "der") (lit "der")) with true. cbv iota. apply oct_reload, Hb.
    + change (class_parse raw (chars "RSA") (chars "pem")) with (rsa_parse C raw (chars "pem")). rewrite rsa_parse_eq. destruct (Q make_rsa true _ (conj H1 H2)) as [-> F]. rewrite make_rsa_eq by exact F. reflexivity.
    + change (class_parse raw (chars "RSA") (chars "pem")) with (rsa_parse C raw (chars "pem")). rewrite rsa_parse_eq. destruct (Q make_rsa false _ (conj H1 (conj H2 H3))) as [-> F]. rewrite make_rsa_eq by exact F. destruct o; reflexivity.
    + change (class_parse raw (chars "EC") (chars "pem")) with (ec_parse C raw (chars "pem")). rewrite ec_parse_eq. destruct (Q make_ec true _ (conj H1 H2)) as [-> F]. rewrite make_ec_eq by exact F. reflexivity.
    + change (class_parse raw (chars "EC") (chars "pem")) with (ec_parse C raw (chars "pem")). rewrite ec_parse_eq. destruct (Q make_ec false _ (conj H1 (conj H2 H3))) as [-> F]. rewrite make_ec_eq by exact F. destruct o; reflexivity.
Qed.

(** ** The whole *)
Lemma reads_fit raw algorithm format m : bytes_ok raw -> reads C raw algorithm format m ->
  wf_mat C m /\ nonzero_coords m /\ incl (key_members m) key_names /\ (algorithm = chars "oct" -> has_private m = true) /\ (algorithm <> chars "oct" -> (has_private m = true <-> says "PRIVATE" raw)).
Proof.
  intros Hb H. assert (I1 : forall m, incl (key_members m) key_names) by (intros m' z Hz; destruct m'; revert Hz; vm_compute; tauto).
  inversion H as [s H1 H2|H1|n e p H1 H2|n e o H1 H2 H3|c x y d H1 H2|c x y o H1 H2 H3]; subst; clear H; cbn [wf_mat nonzero_coords has_private].
  - split; [eapply b64decode_bytes_ok; apply b64decode_iff; eauto|]. split; [exact I|]. split; [apply I1|]. split; [auto|]. congruence.
  - split; [exact Hb|]. split; [exact I|]. split; [apply I1|]. split; [auto|]. congruence.
  - destruct (Hp raw _ (or_introl H2)) as [F1 F2]. apply rsa_public_spec in F1. split; [split; auto|]. split; [exact I|]. split; [apply I1|]. split; [discriminate|tauto].
  - destruct (Hp raw _ (or_intror H3)) as [F1 F2]. apply rsa_public_spec in F1. split; [split; auto|]. split; [exact I|]. split; [apply I1|]. split; [discriminate|]. split; [discriminate|tauto].
  - destruct (Hp raw _ (or_introl H2)) as (F1 & F2 & F3 & F4). apply on_curve_spec in F1. split; [split; auto|]. split; [split; auto|]. split; [apply I1|]. split; [discriminate|tauto].
  - destruct (Hp raw _ (or_intror H3)) as (F1 & F2 & F3 & F4). apply on_curve_spec in F1. split; [split; auto|]. split; [split; auto|]. split; [apply I1|]. split; [discriminate|]. split; [discriminate|tauto].
Qed.
Lemma dumped m pub d options : wf_mat C m -> nonzero_coords m -> mat_dump m pub = Ok d -> NoDup (keys options) ->
  (forall a, In a (keys options) -> a <> lit "kty" /\ a <> lit "self" /\ ~ In a (key_members m)) ->
  exists k, JsonWebKey C (PDict (dupdate d options)) = Ok k /\ jmat k = (if pub then public_part m else m).
Proof.
  intros Hw Hz Ed Hn Hd. destruct (mat_dump_keys m pub d Ed) as (Nd & Kd & Fd & Pd). set (data := dupdate d options).
  assert (Hno : forall a, a = lit "kty" \/ a = lit "self" \/ In a (key_members m) -> lookup a data = lookup a d).
  { intros a Ha. unfold data. rewrite lookup_dupdate, lookup_rev by auto. replace (lookup a options) with (@None pyval); auto. symmetry. apply lookup_None. intros Hi. apply Hd in Hi. tauto. }
  assert (Hs : lookup (lit "self") data = None).
  { rewrite Hno by auto. apply lookup_None. intros Hi. rewrite Forall_forall in Fd. apply Fd in Hi as [Hi|Hi]; [discriminate|]. apply (proj1 (allowed_not_self m)) in Hi. auto. }
  pose proof (mat_reload C m pub d data Hw Hz Ed Hs) as R. rewrite <- key_members_eq in R. specialize (R (fun a Ha => Hno a (or_intror (or_intror Ha)))).
  assert (Hk : lookup (lit "kty") data = Some (PStr (mat_kty m))) by (rewrite Hno; auto).
  unfold JsonWebKey, dget. rewrite Hk. replace (negb (truthy (PDict data))) with false by (destruct data; [discriminate|auto]).
  replace (ins (mat_kty m) key_types) with true by (destruct m; reflexivity). cbn [negb]. rewrite R. cbn [rbind]. eexists; split; reflexivity.
Qed.
Lemma dumped_data m pub d options k : mat_dump m pub = Ok d -> NoDup (keys options) -> JsonWebKey C (PDict (dupdate d options)) = Ok k ->
  forall x, ~ In x key_names -> dget x (jdata k) = dget x options.
Proof.
  intros Hd Hn H x Hx. destruct (mat_dump_keys m pub d Hd) as (Nd & Kd & Fd & Pd). apply c15 in H as (d' & E & _ & ->). injection E as <-.
  assert (Nu : NoDup (keys (dupdate d options))) by (apply dupdate_NoDup; auto).
  rewrite without_none_full, dget_full by auto. unfold dget. rewrite lookup_dupdate, lookup_rev by auto. destruct (lookup x options); auto.
  replace (lookup x d) with (@None pyval); auto. symmetry. apply lookup_None. intros Hi. rewrite Forall_forall in Fd.
  apply Hx. apply Fd in Hi as [->|Hi]; [vm_compute; tauto|]. revert Hi. destruct m; vm_compute; tauto.
Qed.
Lemma dump_cases m pub : (exists d, mat_dump m pub = Ok d /\ (pub = true \/ has_private m = true)) \/ (mat_dump m pub = Err RuntimeError /\ pub = false /\ has_private m = false).
Proof. destruct m as [s|n e [o|]|c x y [o|]], pub; cbn [mat_dump has_private]; eauto 6. Qed.

Theorem c142 F path raw algorithm public format options : found F path raw -> bytes_ok raw -> extra options ->
  (forall m', (exists k, key_parse C F path algorithm public format options = Ok k /\ jmat k = m') <->
     exists m, reads C raw algorithm format m /\ if public then m' = public_part m else m' = m /\ has_private m = true) /\
  (forall k x, key_parse C F path algorithm public format options = Ok k -> ~ In x key_names -> dget x (jdata k) = dget x options) /\
  (forall err, decided (parse_checks C raw algorithm public format) None err <->
     match key_parse C F path algorithm public format options with Ok _ => err = None | Err x => err = Some x end).
Proof.
  intros Hf Hb [Hn Hx]. unfold key_parse.
  destruct (ins algorithm key_types) eqn:Et.
  2:{ assert (Hni : ~ In algorithm [chars "oct"; chars "RSA"; chars "EC"]) by (intros H; apply types_in in H; congruence).
      split; [|split]; [|discriminate|].
      - intros m'. split; [intros (k & [=] & _)|]. intros (m & Hr & _). destruct Hni. inversion Hr; subst; vm_compute; tauto.
      - intros err. cbn [parse_checks app decided]. tauto. }
  apply types_in in Et.
  assert (parse_raw F path = Ok raw) as -> by (unfold parse_raw; inversion Hf as [b H|[H|H]]; subst; rewrite H; reflexivity). cbn [rbind].
  change (jwk_parse C raw algorithm public format options) with
    (let! m := class_parse raw algorithm format in let! d := mat_dump m public in JsonWebKey C (PDict (dupdate d options))).
  pose proof (tells_class_parse raw algorithm format Hb Et) as T. pose proof (fun m => class_parse_iff raw algorithm format m Hb Et) as R.
  assert (Mk : forall m d, reads C raw algorithm format m -> mat_dump m public = Ok d -> exists k, JsonWebKey C (PDict (dupdate d options)) = Ok k /\ jmat k = (if public then public_part m else m)).
  { intros m d Hr Hd. destruct (reads_fit _ _ _ _ Hb Hr) as (H1 & H2 & H3 & _). apply dumped; auto.
    intros a Hi. apply Hx in Hi. split; [|split]; [intros ->; apply Hi; vm_compute; tauto|intros ->; apply Hi; vm_compute; tauto|]. intros H. apply Hi, H3, H. }
  destruct (class_parse raw algorithm format) as [m|e] eqn:Ec; cbn [rbind].
  - pose proof (proj1 (R m) eq_refl) as Hr. split; [|split].
    + intros m'. destruct (dump_cases m public) as [(d & Hd & HP)|(Hd & HP & HQ)]; rewrite Hd; cbn [rbind].
      * destruct (Mk m d Hr Hd) as (k & -> & Hk). split.
        -- intros (k' & [= <-] & <-). exists m. split; auto. rewrite Hk. destruct public; auto. split; auto. destruct HP; congruence.
        -- intros (m2 & Hr2 & H2). apply R in Hr2. injection Hr2 as <-. exists k. split; auto. rewrite Hk. destruct public; symmetry; apply H2.
      * split; [intros (k & [=] & _)|]. intros (m2 & Hr2 & H2). apply R in Hr2. injection Hr2 as <-. rewrite HP in H2. destruct H2. congruence.
    + intros k x Hk. apply BaseFacts.rbind_ok in Hk as (d & Hd & Hk). eapply dumped_data; eauto.
    + destruct (reads_fit _ _ _ _ Hb Hr) as (_ & _ & _ & Ho & Ha).
      assert (T2 : tells (only_if (algorithm <> chars "oct") [(public = true \/ says "PRIVATE" raw, Some RuntimeError)]) (let! d := mat_dump m public in JsonWebKey C (PDict (dupdate d options)))).
      { destruct (dump_cases m public) as [(d & Hd & HP)|(Hd & HP & HQ)]; rewrite Hd; cbn [rbind].
        - destruct (Mk m d Hr Hd) as (k & -> & Hk). apply tells_pass; [|apply tells_nil]. cbn [fst]. intros N. destruct HP as [HP|HP]; auto. right. apply Ha; auto.
        - apply tells_fail. cbn [fst]. intros H. assert (N : algorithm <> chars "oct") by (intros E; apply Ho in E; congruence). destruct (H N) as [H1|H1]; [congruence|]. apply Ha in H1; auto. congruence. }
      intros err.
      assert (TT : tells (parse_checks C raw algorithm public format) (let! m := class_parse raw algorithm format in let! d := mat_dump m public in JsonWebKey C (PDict (dupdate d options)))).
      { change (parse_checks C raw algorithm public format) with ((In algorithm [chars "oct"; chars "RSA"; chars "EC"], Some UnsupportedAlgorithm) ::
          class_checks raw algorithm format ++ only_if (algorithm <> chars "oct") [(public = true \/ says "PRIVATE" raw, Some RuntimeError)]).
        apply tells_pass; [exact Et|]. apply tells_bind; [repeat constructor; try discriminate; cbn [snd error_of]; destruct (c_pem_private C raw), (c_pem_public C raw); discriminate|rewrite Ec; exact T|].
        intros m2 E2. rewrite Ec in E2. injection E2 as <-. exact T2. }
      rewrite Ec in TT. cbn [rbind] in TT. rewrite (TT err). destruct (let! d := mat_dump m public in JsonWebKey C (PDict (dupdate d options))); reflexivity.
  - split; [|split; [discriminate|]].
    + intros m'. split; [intros (k & [=] & _)|]. intros (m2 & Hr2 & _). apply R in Hr2. discriminate.
    + intros err.
      assert (TT : tells (parse_checks C raw algorithm public format) (let! m := class_parse raw algorithm format in Ok m)).
      { change (parse_checks C raw algorithm public format) with ((In algorithm [chars "oct"; chars "RSA"; chars "EC"], Some UnsupportedAlgorithm) ::
          class_checks raw algorithm format ++ only_if (algorithm <> chars "oct") [(public = true \/ says "PRIVATE" raw, Some RuntimeError)]).
        apply tells_pass; [exact Et|]. apply tells_bind; [repeat constructor; try discriminate; cbn [snd error_of]; destruct (c_pem_private C raw), (c_pem_public C raw); discriminate|rewrite Ec; exact T|].
        intros m2 E2. rewrite Ec in E2. discriminate. }
      rewrite Ec in TT. cbn [rbind] in TT. rewrite (TT err). reflexivity.
Qed.
End Parse.
Theorem c142_unread C F path algorithm public format options e : F path = OpenRaises e -> In algorithm [chars "oct"; chars "RSA"; chars "EC"] ->
  key_parse C F path algorithm public format options = Err e.
Proof. intros H Ha. unfold key_parse, parse_raw. apply types_in in Ha. rewrite H, Ha. reflexivity. Qed.

(** ** C138: whatever was generated or read, the options can make another key of it. *)
Definition other_key : pdict := [(chars "kty", PStr (chars "oct")); (chars "k", PStr (chars "d2Vhaw"))].
Lemma weak_key C e : lookup (lit "kty") e = Some (PStr (lit "oct")) -> lookup (lit "k") e = Some (PStr (lit "d2Vhaw")) -> lookup (lit "self") e = None ->
  exists k, JsonWebKey C (PDict e) = Ok k /\ jmat k = KOct (chars "weak").
Proof.
  intros H1 H2 Hs. assert (H3 : truthy (PDict e) = true) by (destruct e; [discriminate H1|reflexivity]).
  unfold JsonWebKey, dget. rewrite H3. cbn [negb]. rewrite H1. change (ins (lit "oct") key_types) with true. cbn [negb].
  unfold make_mat, has, kwarg. rewrite Hs. change (eqs (lit "oct") (lit "oct")) with true. cbv iota. rewrite H2. eexists. split; reflexivity.
Qed.
Lemma no_self m pub d : mat_dump m pub = Ok d -> lookup (lit "self") d = None.
Proof.
  intros H. destruct (mat_dump_keys m pub d H) as (_ & _ & Fd & _). apply lookup_None. intros Hi. rewrite Forall_forall in Fd.
  apply Fd in Hi as [Hi|Hi]; [discriminate|]. apply (proj1 (allowed_not_self m)) in Hi. auto.
Qed.
Theorem c138_parse C F path algorithm public format k0 : key_parse C F path algorithm public format [] = Ok k0 ->
  exists options k, key_parse C F path algorithm public format options = Ok k /\ jmat k = KOct (chars "weak").
Proof.
  unfold key_parse. destruct (ins algorithm key_types); [|discriminate]. intros H. apply rbind_ok in H as (raw & -> & H). cbn [rbind].
  unfold jwk_parse in H |- *. apply rbind_ok in H as (m & -> & H). apply rbind_ok in H as (d & Ed & _). cbn [rbind]. rewrite Ed. cbn [rbind].
  exists other_key. apply no_self in Ed. apply weak_key; rewrite lookup_dupdate; try reflexivity. exact Ed.
Qed.
Theorem c138_generate C G algorithm option k0 : key_generate C G algorithm option [] = Ok k0 ->
  exists params k, key_generate C G algorithm option params = Ok k /\ jmat k = KOct (chars "weak").
Proof.
  unfold key_generate. destruct (ins algorithm key_types); [|discriminate]. cbn [negb]. unfold jwk_generate. intros H. apply rbind_ok in H as (m & -> & H). cbn [rbind].
  apply rbind_ok in H as (d & Ed & _). rewrite Ed. cbn [rbind]. exists other_key. destruct (mat_dump_keys _ _ _ Ed) as (Nd & _). apply no_self in Ed.
  assert (Nu : NoDup (keys (dupdate d other_key))) by (apply dupdate_NoDup; auto).
  apply weak_key; unfold FullDict; rewrite lookup_full by exact Nu; rewrite lookup_dupdate; try reflexivity.
  change (lookup (lit "self") (rev other_key)) with (@None pyval). cbv iota. rewrite Ed. reflexivity.
Qed.
