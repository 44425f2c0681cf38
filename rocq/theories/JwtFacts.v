(** Facts about the model of JWT. *)
From Coq Require Import String Ascii List NArith ZArith Bool Lia ZifyBool ZifyNat ZifyN.
From Verif Require Import Base BaseFacts SpecPy PyFacts Utf8 Utf8Facts SpecCodec Base64 Base64Facts Json JsonFacts Url Webtools WebtoolsFacts Crypto RefCrypto
  Jwk SpecKey JwkFacts Jws SpecJws JwsFacts JwsRef Jwt SpecJwt.
Import ListNotations.
Open Scope N_scope.
Ltac Zify.zify_post_hook ::= Z.div_mod_to_equations.

Lemma check_time_iff name bad e c : check_time name bad e c = Ok tt <-> time_met c name (fun z => bad z = false).
Proof.
  unfold check_time, time_met. rewrite <- true_spec. unfold dget. cbv zeta. destruct (lookup (lit name) c) as [v|] eqn:E; [|split; auto; discriminate].
  destruct (truthy v) eqn:T; [|split; auto; discriminate].
  destruct v; try (split; [discriminate|intros H; destruct (H eq_refl) as (z & Hz & _); discriminate]).
  unfold raise_if. split.
  - destruct (bad z) eqn:B; [discriminate|]. intros _ _. eauto.
  - intros H. destruct (H eq_refl) as (z' & Hz & B). injection Hz as <-. rewrite B. auto.
Qed.
Lemma check_time_err name bad e c e' : check_time name bad e c = Err e' ->
  e' = InvalidJWTClaim \/ (e' = e /\ exists z, lookup (lit name) c = Some (PInt z) /\ z <> 0%Z /\ bad z = true).
Proof.
  unfold check_time, dget. cbv zeta. destruct (lookup (lit name) c) as [v|] eqn:E; [|discriminate].
  destruct (truthy v) eqn:T; [|discriminate].
  destruct v; try (intros H; injection H as <-; auto). unfold raise_if. destruct (bad z) eqn:B; [|discriminate].
  intros H; injection H as <-. right. split; auto. exists z. repeat split; auto. intros ->. discriminate.
Qed.
Lemma check_str_iff name c : check_str name c = Ok tt <-> text_or_null c name.
Proof.
  unfold check_str, text_or_null, dget, raise_if. cbv zeta. destruct (lookup (lit name) c) as [v|] eqn:E.
  - split.
    + intros H w Hw. injection Hw as <-. destruct v; simpl in H; try discriminate; eauto.
    + intros H. destruct (H _ eq_refl) as [->|(s & ->)]; reflexivity.
  - split; [discriminate|reflexivity].
Qed.
Lemma check_aud_iff c : check_aud c = Ok tt <-> aud_met c.
Proof.
  unfold check_aud, aud_met, dget. setoid_rewrite <- true_spec. cbv zeta. destruct (lookup (lit "aud") c) as [v|] eqn:E; [|split; [discriminate|auto]].
  destruct (truthy v) eqn:T.
  2:{ split; auto. intros _ w Hw Tw. injection Hw as <-. congruence. }
  split.
  - intros H w Hw _. injection Hw as <-. destruct v; try discriminate; eauto. right. exists l. split; auto.
    unfold raise_if in H. destruct (existsb _ l) eqn:X; [discriminate|]. intros x Hx.
    assert (N : negb (is_str x) = false).
    { destruct (negb (is_str x)) eqn:N; auto. rewrite <- X. symmetry. apply existsb_exists. eauto. }
    destruct x; try discriminate. eauto.
  - intros H. destruct (H _ eq_refl T) as [(s & ->)|(l & -> & Hl)]; auto. unfold raise_if.
    destruct (existsb _ l) eqn:X; auto. apply existsb_exists in X as (x & Hx & X). destruct (Hl _ Hx) as (s & ->). discriminate.
Qed.
Lemma default_iff now c : validate_default_claims now c = Ok tt <-> claims_met now c.
Proof.
  assert (T : forall name f g, (forall z, f z = false <-> g z) -> (time_met c name (fun z => f z = false) <-> time_met c name g)).
  { intros name f g H. unfold time_met. split; intros K V; destruct (K V) as (z & Hz & Hb); exists z; split; auto; apply H; auto. }
  unfold claims_met. rewrite <- check_aud_iff, <- !check_str_iff.
  rewrite <- (T "exp"%string (fun z => (z <=? now)%Z)) by (intros; lia).
  rewrite <- (T "iat"%string (fun z => (now <? z)%Z)) by (intros; lia).
  rewrite <- (T "nbf"%string (fun z => (now <? z)%Z)) by (intros; lia).
  rewrite <- (check_time_iff "exp" (fun z => (z <=? now)%Z) ExpiredToken), <- (check_time_iff "iat" (fun z => (now <? z)%Z) InvalidJWTClaim),
    <- (check_time_iff "nbf" (fun z => (now <? z)%Z) NotYetValidToken).
  unfold validate_default_claims. split.
  - intros H. apply rbind_ok in H as ([] & E1 & H). apply rbind_ok in H as ([] & E2 & H). apply rbind_ok in H as ([] & E3 & H).
    apply rbind_ok in H as ([] & E4 & H). apply rbind_ok in H as ([] & E5 & H). apply rbind_ok in H as ([] & E6 & H). auto 10.
  - intros (-> & -> & -> & -> & -> & -> & ->). reflexivity.
Qed.
Lemma default_err now c e : validate_default_claims now c = Err e -> e = InvalidJWTClaim \/
  (e = ExpiredToken /\ exists z, lookup (lit "exp") c = Some (PInt z) /\ z <> 0%Z /\ (z <= now)%Z) \/
  (e = NotYetValidToken /\ exists z, lookup (lit "nbf") c = Some (PInt z) /\ (now < z)%Z).
Proof.
  assert (S : forall name, check_str name c = Err e -> e = InvalidJWTClaim).
  { intros name. unfold check_str, raise_if. cbv zeta. destruct (_ && _); congruence. }
  unfold validate_default_claims. intros H. apply rbind_err in H as [H|([] & _ & H)].
  { left. unfold check_aud in H. cbv zeta in H. destruct (truthy _); [|discriminate]. destruct (dget _ _); try congruence; try discriminate.
    unfold raise_if in H. destruct (existsb _ _); congruence. }
  apply rbind_err in H as [H|([] & _ & H)].
  { apply check_time_err in H as [->|(-> & z & E & Hz & B)]; auto. right. left. split; auto. exists z. repeat split; auto. lia. }
  apply rbind_err in H as [H|([] & _ & H)]. { apply check_time_err in H as [->|(-> & _)]; auto. }
  apply rbind_err in H as [H|([] & _ & H)]; [eauto|]. apply rbind_err in H as [H|([] & _ & H)]; [eauto|].
  apply rbind_err in H as [H|([] & _ & H)]; [|eauto].
  apply check_time_err in H as [->|(-> & z & E & Hz & B)]; auto. right. right. split; auto. exists z. repeat split; auto. lia.
Qed.
Lemma claims_met_full now c : NoDup (keys c) -> (claims_met now (full c) <-> claims_met now c).
Proof.
  intros Hn.
  assert (L : forall name, dget (lit name) (full c) = dget (lit name) c) by (intros; apply dget_full; auto).
  assert (T : forall name ok, time_met (full c) name ok <-> time_met c name ok).
  { intros name ok. unfold time_met. rewrite L. rewrite lookup_full by auto. split; intros H V; destruct (H V) as (z & E & B); exists z; split; auto.
    - destruct (lookup _ c) as [[]|]; try discriminate; auto.
    - rewrite E. auto. }
  assert (S : forall name, text_or_null (full c) name <-> text_or_null c name).
  { intros name. unfold text_or_null. rewrite lookup_full by auto. destruct (lookup (lit name) c) as [[]|]; simpl; split; intros H v E; try discriminate; auto.
    injection E as <-. auto. }
  unfold claims_met. rewrite !T, !S. unfold aud_met. rewrite lookup_full by auto.
  assert (A : (forall v, match lookup (lit "aud") c with Some PNone => None | x => x end = Some v -> ~ false_value v ->
     (exists s, v = PStr s) \/ (exists l, v = PList l /\ forall x, In x l -> exists s, x = PStr s)) <->
     (forall v, lookup (lit "aud") c = Some v -> ~ false_value v ->
     (exists s, v = PStr s) \/ (exists l, v = PList l /\ forall x, In x l -> exists s, x = PStr s))).
  { destruct (lookup (lit "aud") c) as [[]|]; try tauto. split; intros H v E; [injection E as <-; intros F; destruct F; constructor|discriminate]. }
  tauto.
Qed.

Lemma is_none_iff v : is_none v = true <-> v = PNone.
Proof. destruct v; simpl; split; congruence. Qed.
Lemma FullDict_without c : FullDict c [] = without_none c.
Proof. rewrite FullDict_nil, without_none_full. auto. Qed.
Lemma p_claims_iff now v r : JsonWebTokenClaims now v PNone = Ok r <->
  exists c, v = PDict c /\ c <> [] /\ claims_met now c /\ r = without_none c.
Proof.
  unfold JsonWebTokenClaims, claims_init. destruct v as [| | | | | |c]; try (split; [discriminate|intros (? & ? & _); discriminate]).
  destruct c as [|kv c]; [split; [discriminate|intros (? & E & ? & _); congruence]|].
  split.
  - intros H. apply rbind_ok in H as ([] & E & H). apply rbind_ok in H as ([] & _ & H). apply Ok_inj in H.
    exists (kv :: c). apply default_iff in E. rewrite <- FullDict_without. split; auto. split; [discriminate|auto].
  - intros (c' & E & _ & H & ->). injection E as <-. apply default_iff in H. rewrite H, FullDict_without. reflexivity.
Qed.
Lemma p_claims_err now v e : JsonWebTokenClaims now v PNone = Err e -> e = InvalidJWTClaim \/
  exists c, v = PDict c /\
    ((e = ExpiredToken /\ exists z, lookup (lit "exp") c = Some (PInt z) /\ z <> 0%Z /\ (z <= now)%Z) \/
     (e = NotYetValidToken /\ exists z, lookup (lit "nbf") c = Some (PInt z) /\ (now < z)%Z)).
Proof.
  unfold JsonWebTokenClaims, claims_init. destruct v as [| | | | | |[|kv c]]; try (intros H; injection H as <-; auto).
  intros H. apply rbind_err in H as [H|(? & _ & H)]; [|discriminate]. apply default_err in H as [H|H]; eauto.
Qed.

(** ** C35 *)
Lemma p_time_partial now c options r : JsonWebTokenClaims now (PDict c) options = Ok r ->
  (forall v, lookup (lit "exp") c = Some v -> ~ false_value v -> exists z, v = PInt z /\ (now < z)%Z) /\
  (forall name v, In name ["iat"; "nbf"]%string -> lookup (lit name) c = Some v -> ~ false_value v -> exists z, v = PInt z /\ (z <= now)%Z).
Proof.
  unfold JsonWebTokenClaims, claims_init. destruct c as [|kv c']; [discriminate|]. set (c := kv :: c'). intros H.
  apply rbind_ok in H as ([] & E & _). apply default_iff in E. destruct E as (_ & E1 & E2 & E3 & _). unfold time_met, dget in *.
  split.
  - intros v Hl T. rewrite Hl in E1. destruct (E1 T) as (z & E & B). injection E as ->. eauto.
  - intros name v [<-|[<-|[]]] Hl T.
    + rewrite Hl in E2. destruct (E2 T) as (z & E & B). injection E as ->. eauto.
    + rewrite Hl in E3. destruct (E3 T) as (z & E & B). injection E as ->. eauto.
Qed.
Lemma p_falsy_times now v : false_value v ->
  forall name, In name ["exp"; "iat"; "nbf"]%string -> JsonWebTokenClaims now (PDict [(lit name, v); (lit "sub", PStr (lit "u"))]) PNone =
    Ok (without_none [(lit name, v); (lit "sub", PStr (lit "u"))]).
Proof.
  intros T name Hin. apply false_spec in T. apply p_claims_iff. eexists. split; [reflexivity|]. split; [discriminate|]. split; auto.
  destruct Hin as [<-|[<-|[<-|[]]]];
    (split; [intros w H; discriminate H|]);
    (split; [intros H; apply true_spec in H; match type of H with truthy (dget _ ((_, ?v) :: _)) = true => first [change (truthy v = true) in H|discriminate H] end; congruence|]);
    (split; [intros H; apply true_spec in H; match type of H with truthy (dget _ ((_, ?v) :: _)) = true => first [change (truthy v = true) in H|discriminate H] end; congruence|]);
    (split; [intros H; apply true_spec in H; match type of H with truthy (dget _ ((_, ?v) :: _)) = true => first [change (truthy v = true) in H|discriminate H] end; congruence|]);
    (split; [intros w H; discriminate H|split; [intros w H; discriminate H|]]);
    intros w H; right; exists (lit "u"); change (Some (PStr (lit "u")) = Some w) in H; congruence.
Qed.

(** ** C37 *)
Lemma option_iff c name o : option_met c name o <->
  (truthy (dget (lit "essential") o) = true -> dget name c <> PNone) /\
  (truthy (dget (lit "value") o) = true -> py_eq (dget name c) (dget (lit "value") o) = true) /\
  (truthy (dget (lit "values") o) = true ->
     exists l, dget (lit "values") o = PList l /\
       (py_in (dget name c) l = true \/ exists items x, dget name c = PList items /\ In x items /\ py_in x l = true)).
Proof. unfold option_met. rewrite !true_spec, same_iff. setoid_rewrite among_iff. reflexivity. Qed.
Lemma stops_iff c kv : stops c kv <-> exists o l items x, snd kv = PDict o /\ dget (lit "values") o = PList l /\
    dget (fst kv) c = PList items /\ In x items /\ py_in x l = true.
Proof. unfold stops. setoid_rewrite among_iff. reflexivity. Qed.
Lemma p_options_break c name items x l o rest :
  dget name c = PList items -> In x items -> among x l ->
  dget (lit "values") o = PList l -> false_value (dget (lit "value") o) ->
  validate_claims ((name, PDict o) :: rest) c = Ok tt.
Proof.
  intros Hc Hx Hl Hv Hnv. apply among_iff in Hl. apply false_spec in Hnv. cbn [validate_claims]. rewrite Hc, Hv, Hnv. cbn [is_none]. rewrite andb_false_r. cbn [raise_if andb rbind].
  assert (T : truthy (PList l) = true) by (destruct l; [discriminate|auto]). rewrite T.
  replace (existsb (fun y => py_in y l) items) with true; auto. symmetry. apply existsb_exists. eauto.
Qed.
Lemma p_options_falsy c name o v : false_value v -> o = [(lit "value", v)] -> validate_claims [(name, PDict o)] c = Ok tt.
Proof.
  intros H ->. apply false_spec in H. cbn [validate_claims]. change (dget (lit "essential") [(lit "value", v)]) with PNone.
  change (dget (lit "values") [(lit "value", v)]) with PNone. change (dget (lit "value") [(lit "value", v)]) with v. rewrite H. reflexivity.
Qed.
Lemma p_options_partial c pre name o post :
  validate_claims (pre ++ (name, PDict o) :: post) c = Ok tt -> (forall kv, In kv pre -> ~ stops c kv) -> option_met c name o.
Proof.
  induction pre as [|[n v] pre IH]; cbn [app validate_claims]; intros H Hs.
  - apply rbind_ok in H as ([] & E1 & H). apply rbind_ok in H as ([] & E2 & H). apply raise_if_ok in E1, E2.
    apply option_iff. split; [|split].
    + intros T E. rewrite T, E in E1. discriminate.
    + intros T. rewrite T in E2. destruct (py_eq _ _); auto.
    + intros T. rewrite T in H. destruct (dget (lit "values") o) as [| | | | |l|]; try discriminate. exists l. split; auto.
      match type of H with (if ?b then _ else _) = _ => destruct b eqn:B end.
      * right. destruct (dget name c) as [| | | | |items|] eqn:Ev; try discriminate. apply existsb_exists in B as (x & Hx & B). eauto 6.
      * apply rbind_ok in H as ([] & E & _). apply raise_if_ok in E. left. destruct (py_in _ l); auto.
  - assert (Hr : forall kv, In kv pre -> ~ stops c kv) by (intros; apply Hs; simpl; auto).
    destruct v as [| | | | | |o']; try (apply IH; auto; fail).
    apply rbind_ok in H as ([] & E1 & H). apply rbind_ok in H as ([] & E2 & H).
    destruct (truthy (dget (lit "values") o')) eqn:T; [|apply IH; auto].
    destruct (dget (lit "values") o') as [| | | | |l|] eqn:Ev; try discriminate.
    match type of H with (if ?b then _ else _) = _ => destruct b eqn:B end.
    + exfalso. destruct (dget n c) as [| | | | |items|] eqn:En; try discriminate. apply existsb_exists in B as (x & Hx & B).
      apply (Hs (n, PDict o')); [simpl; auto|]. apply stops_iff. exists o', l, items, x. auto.
    + apply rbind_ok in H as ([] & E & H). apply IH; auto.
Qed.
Lemma p_options_used now c options r : JsonWebTokenClaims now (PDict c) (PDict options) = Ok r -> validate_claims options c = Ok tt.
Proof.
  unfold JsonWebTokenClaims, claims_init. destruct c; [discriminate|]. intros H. apply rbind_ok in H as ([] & _ & H).
  apply rbind_ok in H as ([] & H & _). auto.
Qed.
Lemma p_options_pre now c pre name o post r :
  JsonWebTokenClaims now (PDict c) (PDict (pre ++ (name, PDict o) :: post)) = Ok r ->
  (forall kv, In kv pre -> ~ stops c kv) -> option_met c name o.
Proof. intros H. eapply p_options_partial, p_options_used, H. Qed.
Lemma p_options_all now c options r name o : JsonWebTokenClaims now (PDict c) (PDict options) = Ok r ->
  (forall kv, In kv options -> ~ stops c kv) -> In (name, PDict o) options -> option_met c name o.
Proof.
  intros H Hs Hi. apply p_options_used in H. apply in_split in Hi as (a & b & ->). eapply p_options_partial; eauto.
  intros kv Hk. apply Hs. rewrite in_app_iff. auto.
Qed.

(** ** C38 *)
Lemma p_offset utc off : (0 <= off)%Z -> (0 <= utc - off * 1000000)%Z -> utcnow_timestamp utc (off * 1000000) = (utc / 1000000 - off)%Z.
Proof. intros H1 H2. unfold utcnow_timestamp. rewrite Z.quot_div_nonneg by lia. lia. Qed.
Definition exp_claims (z : Z) : pdict := [(lit "exp", PInt z)].
Lemma exp_claims_iff now z : z <> 0%Z -> (JsonWebTokenClaims now (PDict (exp_claims z)) PNone = Ok (exp_claims z) <-> (now < z)%Z).
Proof.
  intros Hz. rewrite p_claims_iff. split.
  - intros (c & E & _ & (_ & T & _) & _). injection E as <-. destruct T as (z' & E & B).
    + apply true_spec. change (negb (Z.eqb z 0) = true). lia.
    + change (Some (PInt z) = Some (PInt z')) in E. injection E as <-. auto.
  - intros H. exists (exp_claims z). split; auto. split; [discriminate|]. split; auto.
    split; [intros v Hv; discriminate Hv|]. split; [intros _; exists z; split; auto|].
    split; [intros Hv; apply true_spec in Hv; discriminate Hv|]. split; [intros Hv; apply true_spec in Hv; discriminate Hv|].
    repeat split; intros v Hv; discriminate Hv.
Qed.
Lemma p_timezone_refuted off utc : (0 < off)%Z -> (off < utc / 1000000)%Z ->
  let real := (utc / 1000000)%Z in
  JsonWebTokenClaims (utcnow_timestamp utc (off * 1000000)) (PDict (exp_claims real)) PNone = Ok (exp_claims real) /\
  JsonWebTokenClaims (utcnow_timestamp utc 0) (PDict (exp_claims real)) PNone <> Ok (exp_claims real).
Proof.
  intros H1 H2 real. unfold real. split.
  - apply exp_claims_iff; [lia|]. rewrite p_offset by lia. lia.
  - rewrite exp_claims_iff by lia. pose proof (p_offset utc 0) as P. rewrite Z.mul_0_l in P. rewrite P by lia. lia.
Qed.
Lemma p_utc utc : (0 <= utc)%Z -> utcnow_timestamp utc 0 = (utc / 1000000)%Z.
Proof. intros H. pose proof (p_offset utc 0) as P. rewrite Z.mul_0_l in P. rewrite P by lia. lia. Qed.

(** ** decode *)
Lemma full_idem c : full (full c) = full c.
Proof. unfold full. induction c as [|kv c IH]; simpl; auto. destruct (negb (is_none (snd kv))) eqn:E; simpl; [rewrite E, IH|]; auto. Qed.
Lemma deserialize_header C token key algv v j : deserialize C token key algv v = Ok j ->
  exists hs ps ss hb s d, segments token hs ps ss /\ base64url_decode hs = Ok hb /\ utf8_decode hb = Some s /\
    loads s = Ok (PDict d) /\ NoDup (keys d) /\ JsonWebSignatureHeader (PDict d) = Ok (jheader j) /\ base64url_decode ps = Ok (jpayload j) /\
    (truthy algv = true -> algv = PStr (alg_name (halg (jheader j)))).
Proof.
  unfold deserialize. destruct (split_on 46 token) as [|hs [|ps [|ss [|? ?]]]] eqn:E; try discriminate. apply split3 in E. intros H.
  apply rbind_ok in H as (hb & Eh & H). apply rbind_ok in H as (hv & Ej & H). apply rbind_ok in H as (h & Ehd & H).
  apply rbind_ok in H as ([] & Ea & H). apply rbind_ok in H as ([] & _ & H). apply rbind_ok in H as (p & Ep & H). apply Ok_inj in H. subst j.
  destruct (header_nondict _ _ Ehd) as (d & -> & _).
  apply json_loads_dict in Ej as (Hn & s & Es & El); [|eapply base64url_decode_bytes_ok; eauto].
  exists hs, ps, ss, hb, s, d. cbn [jheader jpayload]. do 7 (split; [solve [auto]|]).
  intros T. apply raise_if_ok in Ea. rewrite T in Ea. rewrite (header_alg_get _ _ Hn Ehd) in Ea.
  apply negb_false_iff in Ea. apply py_eq_str_l in Ea. auto.
Qed.
Lemma claims_init_ok now v options r : JsonWebTokenClaims now v options = Ok r ->
  JsonWebTokenClaims now v PNone = Ok r /\ (forall o c, options = PDict o -> v = PDict c -> validate_claims o c = Ok tt).
Proof.
  unfold JsonWebTokenClaims, claims_init. destruct v as [| | | | | |[|kv c]]; try discriminate. intros H.
  apply rbind_ok in H as ([] & E & H). rewrite E. cbn [rbind]. apply rbind_ok in H as ([] & E2 & H). split; auto.
  intros o c' -> Ec. injection Ec as <-. auto.
Qed.
Lemma claims_init_intro now c options r : JsonWebTokenClaims now (PDict c) PNone = Ok r ->
  (forall o, options = PDict o -> validate_claims o c = Ok tt) -> JsonWebTokenClaims now (PDict c) options = Ok r.
Proof.
  unfold JsonWebTokenClaims, claims_init. destruct c as [|kv c]; [discriminate|]. intros H Ho.
  apply rbind_ok in H as ([] & E & H). rewrite E. cbn [rbind]. destruct options; auto. rewrite Ho; auto.
Qed.
Lemma p_decode_iff C now1 now2 token key algv v options t :
  jwt_decode C now1 now2 token key algv v options = Ok t <->
  exists j s c, deserialize C token key algv v = Ok j /\
    rfc3629_str s = Some (jpayload j) /\ loads s = Ok (PDict c) /\ c <> [] /\ without_none c <> [] /\
    claims_met now1 c /\ claims_met now2 c /\
    (v = true -> forall o, options = PDict o -> validate_claims o c = Ok tt) /\
    tclaims t = without_none c /\ jheader (tjws t) = jheader j /\
    utf8_encode (json_dumps (PDict (without_none c))) = Ok (jpayload (tjws t)).
Proof.
  unfold jwt_decode. split.
  - intros H. apply rbind_ok in H as (j & Ed & H). apply rbind_ok in H as (cv & Ej & H). apply rbind_ok in H as (c1 & Ec & H).
    destruct (deserialize_header _ _ _ _ _ _ Ed) as (hs & ps & ss & hb & hs' & d & H1 & H2 & H3 & H4 & H5 & H6 & H7 & H8).
    apply claims_init_ok in Ec as [Ec Eo]. apply p_claims_iff in Ec as (c & -> & Hc & Hm & ->).
    apply json_loads_dict in Ej as (Hn & s & Es & El); [|eapply base64url_decode_bytes_ok; eauto].
    unfold JsonWebToken in H. rewrite (header_again _ _ H5 H6) in H. cbn [rbind] in H.
    apply rbind_ok in H as (c2 & Ec2 & H). apply p_claims_iff in Ec2 as (c' & E' & Hc' & Hm' & ->). injection E' as <-.
    apply rbind_ok in H as (pl & Ep & H). apply Ok_inj in H. subst t. cbn [tclaims tjws jheader jpayload].
    rewrite !without_none_full, full_idem in *. rewrite (claims_met_full _ _ Hn) in Hm'.
    exists j, s, c. rewrite without_none_full. apply utf8_dec_rfc in Es. do 7 (split; [solve [auto]|]).
    split; [|auto]. intros -> o Ho. eapply Eo; eauto.
  - intros (j & s & c & Ed & Es & El & Hc & Hc' & Hm & Hm2 & Ho & E1 & E2 & E3). rewrite Ed. cbn [rbind].
    destruct (deserialize_header _ _ _ _ _ _ Ed) as (hs & ps & ss & hb & hs' & d & H1 & H2 & H3 & H4 & H5 & H6 & H7 & H8).
    apply utf8_dec_rfc in Es. rewrite (json_loads_intro _ _ _ Es El). cbn [rbind].
    assert (Hn : NoDup (keys c)) by (eapply loads_dict; eauto).
    rewrite (claims_init_intro now1 c _ (without_none c)).
    + cbn [rbind]. unfold JsonWebToken. rewrite (header_again _ _ H5 H6). cbn [rbind].
      assert (Ec2 : JsonWebTokenClaims now2 (PDict (without_none c)) PNone = Ok (without_none c)).
      { apply p_claims_iff. exists (without_none c). split; auto. split; auto. rewrite !without_none_full, full_idem. split; auto.
        apply claims_met_full; auto. }
      rewrite Ec2. cbn [rbind]. unfold to_bytes. unfold str in *. rewrite E3. cbn [rbind]. f_equal.
      destruct t as [tc [th tp]]. cbn [tclaims tjws jheader jpayload] in *. congruence.
    + apply p_claims_iff. eauto 6.
    + intros o Eo. destruct v; [|discriminate]. auto.
Qed.
Lemma p_options_complete c options : (forall name o, In (name, PDict o) options -> option_met c name o) -> validate_claims options c = Ok tt.
Proof.
  induction options as [|[n v] r IH]; intros H; auto. cbn [validate_claims].
  assert (IH' : validate_claims r c = Ok tt) by (apply IH; intros; apply H; simpl; auto).
  destruct v as [| | | | | |o]; auto. assert (Ho : option_met c n o) by (apply H; simpl; auto). apply option_iff in Ho as (H1 & H2 & H3).
  replace (truthy (dget (lit "essential") o) && is_none (dget n c)) with false.
  2:{ destruct (truthy (dget (lit "essential") o)); auto. specialize (H1 eq_refl). destruct (dget n c); auto; congruence. }
  replace (truthy (dget (lit "value") o) && negb (py_eq (dget n c) (dget (lit "value") o))) with false.
  2:{ destruct (truthy (dget (lit "value") o)); auto. rewrite H2; auto. }
  cbn [raise_if rbind]. destruct (truthy (dget (lit "values") o)); auto. destruct (H3 eq_refl) as (l & -> & H4).
  match goal with |- (if ?b then _ else _) = _ => destruct b eqn:B end; auto.
  destruct H4 as [->|(items & x & E & Hx & Hl)]; auto.
  rewrite E in B. exfalso. assert (X : existsb (fun x => py_in x l) items = true) by (apply existsb_exists; eauto). congruence.
Qed.
Lemma url_ascii l : bytes_ok l -> Forall (fun c => c < 128) (base64url_encode l).
Proof. intros H. apply base64url_encode_url in H. eapply Forall_impl; [|exact H]. intros c Hc. apply url_char_lt; auto. Qed.
Lemma serialize_ascii C rand d h payload k token : constructible C k -> NoDup (keys d) -> backend_correct C (jmat k) -> bytes_ok payload ->
  JsonWebSignatureHeader (PDict d) = Ok h ->
  serialize C rand {| jheader := h; jpayload := payload |} (Some k) = Ok token -> Forall (fun c => c < 128) token.
Proof.
  intros Hk Hn B Hp Hh H. destruct (serialize_ok _ _ _ _ _ _ _ Hk Hn Hh H) as (_ & hb & Eb & Ht). cbv zeta in Ht.
  assert (Ob : bytes_ok hb) by (apply utf8_encode_ok in Eb; tauto).
  assert (M : Forall (fun c => c < 128) (base64url_encode hb ++ 46 :: base64url_encode payload)).
  { apply Forall_app. split; [apply url_ascii; auto|]. constructor; [lia|apply url_ascii; auto]. }
  destruct Ht as [[_ ->]|(Ha & F & sig & Es & ->)]; apply Forall_app; split; auto.
  - repeat constructor.
  - constructor; [lia|]. apply url_ascii. eapply mat_sign_accepts; eauto.
Qed.
Lemma p_jwt_roundtrip C rand now claims d k k' t s now1 now2 algv options :
  json_wf (PDict claims) = true -> json_wf (PDict d) = true -> without_none claims <> [] ->
  constructible C k -> constructible C k' -> verifying_key k k' -> backend_correct C (jmat k) ->
  JsonWebToken now (PDict claims) (PDict d) = Ok t -> jwt_encode C rand t (Some k) = Ok s ->
  (~ false_value algv -> algv = dget (lit "alg") d) ->
  (now <= now1)%Z -> (now <= now2)%Z ->
  (forall z, lookup (lit "exp") claims = Some (PInt z) -> z = 0%Z \/ (now1 < z)%Z /\ (now2 < z)%Z) ->
  (forall o, options = PDict o -> forall name op, In (name, PDict op) o -> option_met claims name op) ->
  tclaims t = without_none claims /\ hdict (jheader (tjws t)) = without_none d /\
  jwt_decode_str C now1 now2 s (Some k') algv true options = Ok t.
Proof.
  intros Hw Hd Hne Hk Hk' Hv B Ht Hs Ha L1 L2 Hx Ho. pose proof (json_wf_NoDup _ Hw) as Nc. pose proof (json_wf_NoDup _ Hd) as Nd.
  unfold JsonWebToken in Ht. apply rbind_ok in Ht as (h & Eh & Ht). apply rbind_ok in Ht as (c & Ec & Ht). apply rbind_ok in Ht as (pl & Ep & Ht).
  apply Ok_inj in Ht. subst t. cbn [tclaims tjws jheader jpayload] in *. apply p_claims_iff in Ec as (c' & E' & Hc & Hm & ->). injection E' as <-.
  assert (Edh : hdict h = without_none d) by (apply header_iff in Eh as (_ & Eh & _); rewrite without_none_full; auto).
  split; auto. split; auto. unfold jwt_encode in Hs. cbn [tjws] in Hs. apply rbind_ok in Hs as (token & Et & Hs). apply Ok_inj in Hs. subst s.
  unfold to_bytes in Ep. assert (Op : bytes_ok pl) by (apply utf8_encode_ok in Ep; tauto).
  pose proof (serialize_ascii _ _ _ _ _ _ _ Hk Nd B Op Eh Et) as Asc.
  unfold jwt_decode_str. unfold to_string. rewrite (utf8_decode_ascii _ Asc). unfold to_bytes. rewrite (utf8_encode_ascii _ Asc). cbn [rbind].
  pose proof (p_jws_roundtrip _ _ _ _ _ _ _ _ algv Hd Op Hk Hk' Hv B Eh Et Ha) as Hde.
  apply p_decode_iff. exists {| jheader := h; jpayload := pl |}, (json_dumps (PDict (without_none claims))), (without_none claims).
  rewrite !without_none_full in *. unfold json_dumps in *. cbn [jheader jpayload tclaims tjws].
  assert (M : forall n, (now <= n)%Z -> (forall z, lookup (lit "exp") claims = Some (PInt z) -> z = 0%Z \/ (n < z)%Z) -> claims_met n claims).
  { intros n Ln Hn. destruct Hm as (M1 & M2 & M3 & M4 & M5). split; auto. split; [|split; [|split; [|auto]]].
    - intros T. destruct (M2 T) as (z & E & _). exists z. split; auto. destruct (Hn _ E) as [->|]; auto. unfold dget in T. rewrite E in T. destruct T. constructor.
    - intros T. destruct (M3 T) as (z & E & Lz). exists z. split; auto. lia.
    - intros T. destruct (M4 T) as (z & E & Lz). exists z. split; auto. lia. }
  rewrite full_idem.
  split; auto. split; [apply utf8_dec_rfc, utf8_decode_encode; auto|].
  split; [apply loads_dumps; apply json_wf_full; auto|]. do 2 (split; [auto|]).
  split; [apply claims_met_full; auto; apply M; auto; intros z E; destruct (Hx z E); tauto|].
  split; [apply claims_met_full; auto; apply M; auto; intros z E; destruct (Hx z E); tauto|].
  split; [|auto].
  intros _ o Eo. apply p_options_complete. intros name op Hin. specialize (Ho o Eo name op Hin).
  unfold option_met in *. rewrite !dget_full; auto.
Qed.

(** Claims that are all None can be encoded but not decoded. *)
Lemma jwt_null_claims : exists t s, JsonWebToken 0 (PDict [(lit "a", PNone)]) (PDict [(lit "alg", PStr (lit "HS256"))]) = Ok t /\
  jwt_encode ref [] t (Some (oct_key [])) = Ok s /\
  jwt_decode_str ref 0 0 s (Some (oct_key [])) PNone true PNone = Err InvalidJWTClaim.
Proof. eexists _, _. vm. Qed.

(** ** C39 *)
Lemma p_only_json C :
  (forall token key algv v j, deserialize C token key algv v = Ok j ->
     exists hs ps ss hb s d, segments token hs ps ss /\ base64url_decode hs = Ok hb /\
       rfc3629_str s = Some hb /\ loads s = Ok (PDict d) /\ hdict (jheader j) = without_none d /\ base64url_decode ps = Ok (jpayload j)) /\
  (forall now1 now2 token key algv v options t, jwt_decode C now1 now2 token key algv v options = Ok t ->
     exists hs ps ss pb s c, segments token hs ps ss /\ base64url_decode ps = Ok pb /\
       rfc3629_str s = Some pb /\ loads s = Ok (PDict c) /\ tclaims t = without_none c).
Proof.
  assert (H0 : forall token key algv v j, deserialize C token key algv v = Ok j ->
     exists hs ps ss hb s d, segments token hs ps ss /\ base64url_decode hs = Ok hb /\
       rfc3629_str s = Some hb /\ loads s = Ok (PDict d) /\ hdict (jheader j) = without_none d /\ base64url_decode ps = Ok (jpayload j)).
  { intros token key algv v j H. destruct (deserialize_header _ _ _ _ _ _ H) as (hs & ps & ss & hb & s & d & H1 & H2 & H3 & H4 & H5 & H6 & H7 & H8).
    exists hs, ps, ss, hb, s, d. apply utf8_dec_rfc in H3. do 4 (split; [solve [auto]|]). split; auto.
    apply header_iff in H6 as (_ & H6 & _). rewrite without_none_full. auto. }
  split; auto. intros now1 now2 token key algv v options t H. apply p_decode_iff in H as (j & s & c & Ed & Es & El & _ & _ & _ & _ & _ & Et & _).
  destruct (H0 _ _ _ _ _ Ed) as (hs & ps & ss & hb & s' & d & H1 & _ & _ & _ & _ & H2).
  exists hs, ps, ss, (jpayload j), s, c. auto 7.
Qed.

(** ** C40 *)
Lemma deserialize_unchecked C token key key' algv v j : deserialize C token key algv v = Ok j ->
  deserialize C token key' algv false = Ok j.
Proof.
  unfold deserialize. destruct (split_on 46 token) as [|hs [|ps [|ss [|? ?]]]]; try discriminate. intros H.
  apply rbind_ok in H as (hb & -> & H). cbn [rbind]. apply rbind_ok in H as (hv & -> & H). cbn [rbind]. apply rbind_ok in H as (h & -> & H). cbn [rbind].
  apply rbind_ok in H as ([] & -> & H). cbn [rbind]. apply rbind_ok in H as ([] & _ & H). auto.
Qed.
Lemma deserialize_any_key C C' token ss' key key' algv hs ps ss : segments token hs ps ss -> ~ In 46 ss' ->
  deserialize C token key algv false = deserialize C' (hs ++ 46 :: ps ++ 46 :: ss') key' algv false.
Proof.
  intros H Hs. unfold deserialize. pose proof H as E. apply split3 in E. rewrite E.
  assert (E' : split_on 46 (hs ++ 46 :: ps ++ 46 :: ss') = [hs; ps; ss']) by (apply split3; unfold segments in *; tauto).
  rewrite E'. auto.
Qed.
Lemma p_decode_unchecked C :
  (forall now1 now2 token key key' algv options options' t,
     jwt_decode C now1 now2 token key algv true options = Ok t -> jwt_decode C now1 now2 token key' algv false options' = Ok t) /\
  (forall C' now1 now2 token hs ps ss ss' key key' algv options options', segments token hs ps ss -> ~ In 46 ss' ->
     jwt_decode C now1 now2 token key algv false options = jwt_decode C' now1 now2 (hs ++ 46 :: ps ++ 46 :: ss') key' algv false options') /\
  (forall now1 now2 token key algv options t, jwt_decode C now1 now2 token key algv false options = Ok t ->
     exists hs ps ss hb s d pb ps' c, segments token hs ps ss /\
       base64url_decode hs = Ok hb /\ rfc3629_str s = Some hb /\ loads s = Ok (PDict d) /\ header_valid d /\
       base64url_decode ps = Ok pb /\ rfc3629_str ps' = Some pb /\ loads ps' = Ok (PDict c) /\
       claims_met now1 c /\ claims_met now2 c /\ tclaims t = without_none c /\ hdict (jheader (tjws t)) = without_none d).
Proof.
  split; [|split].
  - intros now1 now2 token key key' algv options options' t H. apply p_decode_iff in H as (j & s & c & Ed & H).
    apply p_decode_iff. exists j, s, c. split; [eapply deserialize_unchecked; eauto|].
    destruct H as (H1 & H2 & H3 & H4 & H5 & H6 & _ & H7). do 6 (split; [auto|]). split; auto. discriminate.
  - intros C' now1 now2 token hs ps ss ss' key key' algv options options' H Hs. unfold jwt_decode.
    rewrite (deserialize_any_key C C' _ ss' key key' algv _ _ _ H Hs). auto.
  - intros now1 now2 token key algv options t H. apply p_decode_iff in H as (j & s & c & Ed & Es & El & _ & _ & M1 & M2 & _ & Et & Eh & _).
    destruct (deserialize_header _ _ _ _ _ _ Ed) as (hs & ps & ss & hb & s' & d & H1 & H2 & H3 & H4 & H5 & H6 & H7 & H8).
    exists hs, ps, ss, hb, s', d, (jpayload j), s, c. apply utf8_dec_rfc in H3. apply header_iff in H6 as (V & H6 & _).
    do 11 (split; [solve [auto]|]). rewrite Eh, H6, without_none_full. auto.
Qed.

(** ** C41 *)
Lemma p_nonce now c options r o n : IDToken now (PDict c) options = Ok r -> options = PDict o ->
  dget (lit "nonce") o = PStr n -> n <> [] -> lookup (lit "nonce") c = Some (PStr n).
Proof.
  unfold IDToken, claims_init. destruct c as [|kv c]; [discriminate|]. set (c' := kv :: c). intros H -> Hn Hne.
  apply rbind_ok in H as ([] & E & _). apply rbind_ok in E as ([] & _ & E). apply rbind_ok in E as ([] & _ & E).
  unfold validate_nonce in E. destruct o as [|kv' o']; [discriminate|]. cbn [truthy] in E. rewrite Hn in E. apply raise_if_ok in E.
  destruct n as [|x n]; [congruence|]. cbn [truthy andb] in E. apply negb_false_iff in E. apply py_eq_str_l in E.
  unfold dget in E. destruct (lookup _ c') as [v|]; [|discriminate]. congruence.
Qed.
Lemma p_auth_time_ignored now options c v : ~ In (lit "auth_time") (keys c) -> IDToken now (PDict c) options = Ok (without_none c) ->
  options = PNone -> c <> [] -> IDToken now (PDict (c ++ [(lit "auth_time", v)])) PNone = Ok (without_none (c ++ [(lit "auth_time", v)])).
Proof.
  intros Hn H -> Hc. unfold IDToken, claims_init in *. destruct c as [|kv c]; [congruence|]. cbn [app].
  assert (D : forall a, a <> lit "auth_time" -> lookup a ((kv :: c) ++ [(lit "auth_time", v)]) = lookup a (kv :: c)).
  { intros a Ha. generalize (kv :: c). clear - Ha. intros l. induction l as [|[k' w] l IH]; cbn [app lookup].
    - replace (eqs a (lit "auth_time")) with false; auto. symmetry. apply eqs_false. auto.
    - destruct (eqs a k'); auto. }
  set (d := (kv :: c) ++ [(lit "auth_time", v)]) in *. change (kv :: c ++ [(lit "auth_time", v)]) with d.
  apply rbind_ok in H as ([] & E & H).
  apply rbind_ok in E as ([] & E1 & E). apply rbind_ok in E as ([] & E2 & E3).
  assert (G : forall a, a <> lit "auth_time" -> dget a d = dget a (kv :: c)) by (intros; unfold dget; rewrite D; auto).
  replace (validate_default_claims now d) with (validate_default_claims now (kv :: c)).
  2:{ unfold validate_default_claims, check_aud, check_time, check_str. rewrite !G by (intros X; discriminate X). reflexivity. }
  rewrite E1. cbn [rbind]. unfold validate_auth_time in *. rewrite !G by (intros X; discriminate X). rewrite E2. cbn [rbind].
  rewrite FullDict_without. reflexivity.
Qed.
(** ** C79 *)
Lemma p_decode_errors C now1 now2 token key algv v options e : jwt_decode C now1 now2 token key algv v options = Err e ->
  In e (jws_errors ++ jws_escaping ++ jwt_errors ++ [UnicodeEncodeError]).
Proof.
  assert (L : forall e l, In e (jws_errors ++ jws_escaping) -> In e (jws_errors ++ jws_escaping ++ l)).
  { intros e' l. rewrite app_assoc, !in_app_iff. tauto. }
  assert (Kc : forall now w op e', JsonWebTokenClaims now w op = Err e' -> In e' jwt_errors).
  { intros now w op e' H. destruct (JsonWebTokenClaims now w PNone) eqn:E0.
    - unfold JsonWebTokenClaims, claims_init in H, E0. destruct w as [| | | | | |[|kv c]]; try discriminate.
      apply rbind_ok in E0 as ([] & E1 & _). rewrite E1 in H. cbn [rbind] in H. apply rbind_err in H as [H|(? & _ & H)]; [|discriminate].
      destruct op; try discriminate. left. symmetry. revert H. generalize d. clear. intros d. induction d as [|[n v] r IH]; [discriminate|].
      cbn [validate_claims]. destruct v as [| | | | | |o]; auto. intros H.
      apply rbind_err in H as [H|(? & _ & H)]; [unfold raise_if in H; destruct (_ && _); congruence|].
      apply rbind_err in H as [H|(? & _ & H)]; [unfold raise_if in H; destruct (_ && _); congruence|].
      destruct (truthy (dget (lit "values") o)); auto. destruct (dget (lit "values") o); try congruence.
      match type of H with (if ?b then _ else _) = _ => destruct b end; [discriminate|].
      apply rbind_err in H as [H|(? & _ & H)]; [unfold raise_if in H; destruct (negb _); congruence|auto].
    - assert (e' = e0).
      { unfold JsonWebTokenClaims, claims_init in H, E0. destruct w as [| | | | | |[|kv c]]; try congruence.
        apply rbind_err in E0 as [E1|(? & _ & E1)]; [|discriminate]. rewrite E1 in H. cbn [rbind] in H. congruence. }
      subst. apply p_claims_err in E0 as [->|(c & _ & [(-> & _)|(-> & _)])]; cbn; auto. }
  unfold jwt_decode. intros H. apply rbind_err in H as [H|(j & Ed & H)]; [apply L; eapply p_jws_errors; eauto|].
  apply rbind_err in H as [H|(cv & Ej & H)]; [unfold json_loads in H; apply loads_err in H; subst; cbn; tauto|].
  apply rbind_err in H as [H|(c & Ec & H)]; [apply Kc in H; rewrite !in_app_iff; auto|].
  destruct (deserialize_header _ _ _ _ _ _ Ed) as (hs & ps & ss & hb & s' & d & H1 & H2 & H3 & H4 & H5 & H6 & H7 & H8).
  unfold JsonWebToken in H. rewrite (header_again _ _ H5 H6) in H. cbn [rbind] in H.
  apply rbind_err in H as [H|(c2 & Ec2 & H)]; [apply Kc in H; rewrite !in_app_iff; auto|].
  apply rbind_err in H as [H|(pl & _ & H)]; [apply utf8_encode_err in H; subst; cbn; tauto|discriminate].
Qed.
(** A correctly signed token with the claims {"a": "\ud800"}. *)
Definition surrogate_message : bytes := base64url_encode (lit "{""alg"": ""HS256""}") ++ 46 :: base64url_encode (lit "{""a"": ""\ud800""}").
Definition surrogate_token : bytes := Eval vm_compute in
  surrogate_message ++ 46 :: match jmat (oct_key []) with KOct s => base64url_encode (hmac SHA256 s surrogate_message) | _ => [] end.
Lemma surrogate_decode :
  rmap jpayload (deserialize ref surrogate_token (Some (oct_key [])) (PStr (lit "HS256")) true) = Ok (lit "{""a"": ""\ud800""}") /\
  jwt_decode ref 0 0 surrogate_token (Some (oct_key [])) (PStr (lit "HS256")) true PNone = Err UnicodeEncodeError.
Proof. vm. Qed.
