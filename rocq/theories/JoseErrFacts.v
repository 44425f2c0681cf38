(** Which error jws.py and jwt.py raise for which token: lemmas for C132 and C133. *)
From Coq Require Import String Ascii List NArith ZArith Bool Lia ZifyBool ZifyNat ZifyN.
From Verif Require Import Base BaseFacts SpecPy PyFacts SpecCodec Utf8 Utf8Facts Base64 Base64Facts Json JsonFacts Url Webtools WebtoolsFacts Crypto Jwk JwkFacts SpecKey Jws SpecJws JwsFacts
  Jwt SpecJwt JwtFacts SpecReaders ReaderFacts ReadB64Facts HeaderFacts ReadJwsFacts SpecHook ResponseFacts HookFacts SpecJoseErr SpecWrite WriteFacts.
Import ListNotations.
Open Scope N_scope.
Notation rbind_ok := BaseFacts.rbind_ok.

Definition raised {A} (r : result A) : option exn := match r with Ok _ => None | Err e => Some e end.
(** The list of checks says what [r] is. *)
Definition tells {A} (l : list (Prop * option exn)) (r : result A) : Prop := forall v, decided l None v <-> v = raised r.
Definition errs (l : list (Prop * option exn)) : Prop := Forall (fun c => snd c <> None) l.

Lemma decided_app l1 l2 v : errs l1 ->
  (decided (l1 ++ l2) None v <-> (decided l1 None None /\ decided l2 None v) \/ (v <> None /\ decided l1 None v)).
Proof.
  induction l1 as [|[P w] l1 IH]; intros E; cbn [app decided].
  - split; [auto|]. intros [[_ H]|[H1 H2]]; [exact H|congruence].
  - inversion E as [|? ? E1 E2]; subst. cbn [snd] in E1. rewrite IH by auto. split.
    + intros [[HP [[H1 H2]|[H1 H2]]]|[H1 ->]]; auto.
    + intros [[[[HP H1]|[HP H1]] H2]|[H1 [[HP H2]|[HP ->]]]]; auto. congruence.
Qed.
Lemma tells_nil {A} (a : A) : tells [] (Ok a).
Proof. intros v. cbn [decided raised]. reflexivity. Qed.
Lemma tells_pass {A} (P : Prop) w l (r : result A) : P -> tells l r -> tells ((P, w) :: l) r.
Proof. intros H T v. cbn [decided]. rewrite (T v). tauto. Qed.
Lemma tells_fail {A} (P : Prop) e l : ~ P -> tells ((P, Some e) :: l) (Err e : result A).
Proof. intros H v. cbn [decided raised]. tauto. Qed.
Lemma tells_bind {A B} l1 l2 (r : result A) (f : A -> result B) : errs l1 -> tells l1 r ->
  (forall a, r = Ok a -> tells l2 (f a)) -> tells (l1 ++ l2) (rbind r f).
Proof.
  intros E T F v. rewrite (decided_app _ _ _ E). rewrite (T v), (T None). destruct r as [a|e]; cbn [rbind raised].
  - rewrite (F a eq_refl v). split; [intros [[_ H]|[H1 H2]]; [exact H|congruence]|auto].
  - split; [intros [[H _]|[_ H]]; [discriminate|exact H]|]. intros ->. right. split; [discriminate|reflexivity].
Qed.
Lemma tells_one {A} (P : Prop) e (r : result A) : (P <-> exists a, r = Ok a) -> (forall e', r = Err e' -> e' = e) -> tells [(P, Some e)] r.
Proof.
  intros H K v. cbn [decided]. destruct r as [a|e']; cbn [raised].
  - assert (P) by (apply H; eauto). tauto.
  - assert (~ P) by (intros HP; apply H in HP as (a & Ha); discriminate). rewrite (K e' eq_refl). tauto.
Qed.
Lemma tells_map {A B} l (r : result A) (r' : result B) : raised r = raised r' -> tells l r -> tells l r'.
Proof. intros E T v. rewrite <- E. apply T. Qed.
Lemma tells_iff {A} (P Q : Prop) w l (r : result A) : (P <-> Q) -> tells ((Q, w) :: l) r -> tells ((P, w) :: l) r.
Proof. intros E T v. rewrite <- (T v). cbn [decided]. tauto. Qed.
Lemma tells_shift {A} (P : Prop) w l (r : result A) : P -> tells l r -> tells ((P, w) :: l) r.
Proof. apply tells_pass. Qed.

(** ** The parts of a token *)
Lemma url_fails t : (exists e, base64url_decode t = Err e) -> ~ exists b, url_octets t b.
Proof. intros (e & He) (b & Hb). apply url_octets_iff in Hb. congruence. Qed.
Lemma json_octets_loads b v : bytes_ok b -> (json_loads b = Ok v <-> json_octets b v).
Proof. intros Hb. apply json_octets_iff. exact Hb. Qed.
Lemma json_loads_object b d : bytes_ok b -> (json_loads b = Ok (PDict d) <-> json_object b d).
Proof.
  intros Hb. split.
  - intros H. apply json_loads_dict in H as (_ & s & Es & El); auto. apply utf8_dec_rfc in Es. eapply json_object_loads; eauto.
  - intros H. apply json_octets_loads; auto. left. exact H.
Qed.
Lemma json_object_keys b d : json_object b d -> NoDup (keys d).
Proof. intros H. apply json_object_iff in H as (s & _ & H). apply loads_dict in H. tauto. Qed.

Section Token.
Variables (token hs ps ss hb : bytes).
Hypothesis Hseg : segments token hs ps ss.
Hypothesis Hdec : base64url_decode hs = Ok hb.
Lemma parts_inj hs' ps' ss' : segments token hs' ps' ss' -> hs' = hs /\ ps' = ps /\ ss' = ss.
Proof. intros H. destruct (segments_inj _ _ _ _ _ _ _ H Hseg) as (-> & -> & ->). auto. Qed.
Lemma header_bytes : bytes_ok hb. Proof. eapply base64url_decode_bytes_ok; eauto. Qed.
Lemma has_header_iff d P : json_loads hb = Ok (PDict d) -> (has_header token P <-> P d).
Proof.
  intros Hj. split.
  - intros (hs' & ps' & ss' & hb' & d' & H1 & H2 & H3 & H4). destruct (parts_inj _ _ _ H1) as (-> & -> & ->).
    apply url_octets_iff in H2. assert (hb' = hb) as -> by congruence. apply json_loads_object in H3; [|apply header_bytes]. congruence.
  - intros H. exists hs, ps, ss, hb, d. do 3 (split; [first [assumption|apply url_octets_iff; assumption|apply json_loads_object; [apply header_bytes|assumption]]|]). exact H.
Qed.
Lemma has_header_not v P : json_loads hb = Ok v -> (forall d, v <> PDict d) -> ~ has_header token P.
Proof.
  intros Hj Hv (hs' & ps' & ss' & hb' & d' & H1 & H2 & H3 & H4). destruct (parts_inj _ _ _ H1) as (-> & -> & ->).
  apply url_octets_iff in H2. assert (hb' = hb) as -> by congruence. apply json_loads_object in H3; [|apply header_bytes]. apply (Hv d'). congruence.
Qed.
Lemma has_parts_iff d name P : json_loads hb = Ok (PDict d) -> lookup (lit "alg") d = Some (PStr name) -> (has_parts token P <-> P name hs ps ss).
Proof.
  intros Hj Hl. split.
  - intros (hs' & ps' & ss' & hb' & d' & name' & H1 & H2 & H3 & H4 & H5). destruct (parts_inj _ _ _ H1) as (-> & -> & ->).
    apply url_octets_iff in H2. assert (hb' = hb) as -> by congruence. apply json_loads_object in H3; [|apply header_bytes].
    assert (d' = d) as -> by congruence. change (chars "alg") with (lit "alg") in H4. congruence.
  - intros H. exists hs, ps, ss, hb, d, name. split; [assumption|]. split; [apply url_octets_iff; assumption|].
    split; [apply json_loads_object; [apply header_bytes|assumption]|]. split; assumption.
Qed.
Lemma has_claims_iff b c P : base64url_decode ps = Ok b -> json_loads b = Ok (PDict c) -> (has_claims token P <-> P c).
Proof.
  intros Hb Hj. assert (Bb : bytes_ok b) by (eapply base64url_decode_bytes_ok; eauto). split.
  - intros (hs' & ps' & ss' & b' & c' & H1 & H2 & H3 & H4). destruct (parts_inj _ _ _ H1) as (-> & -> & ->).
    apply url_octets_iff in H2. assert (b' = b) as -> by congruence. apply json_loads_object in H3; auto. congruence.
  - intros H. exists hs, ps, ss, b, c. split; [assumption|]. split; [apply url_octets_iff; assumption|].
    split; [apply json_loads_object; assumption|]. exact H.
Qed.
Lemma has_claims_not b v P : base64url_decode ps = Ok b -> json_loads b = Ok v -> (forall d, v <> PDict d) -> ~ has_claims token P.
Proof.
  intros Hb Hj Hv (hs' & ps' & ss' & b' & c' & H1 & H2 & H3 & H4). destruct (parts_inj _ _ _ H1) as (-> & -> & ->).
  apply url_octets_iff in H2. assert (b' = b) as -> by congruence. apply json_loads_object in H3; [|eapply base64url_decode_bytes_ok; eauto].
  apply (Hv c'). congruence.
Qed.
End Token.

(** ** Header *)
Lemma validate_alg_err d : validate_crit d = Ok tt \/ True -> forall e, JsonWebSignatureHeader (PDict d) = Err e ->
  (exists name, lookup (lit "alg") d = Some (PStr name) /\ In name registered) -> e = InvalidJWSHeader.
Proof.
  intros _ e H (name & Hl & Hr). apply registered_spec in Hr as (a & ->).
  assert (Ev : validate_alg d = Ok a) by (apply validate_alg_ok; exact Hl).
  unfold JsonWebSignatureHeader in H. destruct d as [|kv d]; [discriminate|]. set (D := kv :: d) in *. rewrite Ev in H. cbn [rbind] in H.
  assert (X : forall e, validate_crit D = Err e -> e = InvalidJWSHeader).
  { intros e'. unfold validate_crit. destruct (has _ _); [|discriminate]. destruct (dget _ _) as [| | | | |[|]|]; try congruence.
    destruct (existsb _ _); [congruence|]. destruct (existsb _ _); congruence. }
  assert (Y : forall n e, validate_text n D = Err e -> e = InvalidJWSHeader).
  { intros n e'. unfold validate_text. destruct (has _ _); [|discriminate]. unfold raise_if. cbv zeta. destruct (_ || _); congruence. }
  apply rbind_err in H as [H|(? & _ & H)]; [apply X, H|]. apply rbind_err in H as [H|(? & _ & H)]; [eapply Y, H|].
  apply rbind_err in H as [H|(? & _ & H)]; [eapply Y, H|]. apply rbind_err in H as [H|(? & _ & H)]; [eapply Y, H|]. discriminate.
Qed.
Lemma tells_header_in v (f : (pdict -> Prop) -> Prop) : (forall P, f P <-> exists d, v = PDict d /\ P d) -> tells (header_lines f) (JsonWebSignatureHeader v).
Proof.
  intros Hf. unfold header_lines.
  assert (D : (exists d, v = PDict d) \/ (forall d, v <> PDict d)) by (destruct v; eauto; right; discriminate).
  destruct D as [(d & ->)|D].
  2:{ assert (E : JsonWebSignatureHeader v = Err InvalidJWSHeader) by (destruct v as [| | | | | |d]; auto; destruct (D d eq_refl)).
      rewrite E. apply tells_fail. rewrite Hf. intros (d & F & _). exact (D _ F). }
  assert (HI : forall P : pdict -> Prop, f P <-> P d) by (intros P; rewrite Hf; split; [intros (d' & [= <-] & H); exact H|eauto]).
  change (chars "alg") with (lit "alg").
  destruct (lookup (lit "alg") d) as [w|] eqn:El.
  2:{ assert (E : JsonWebSignatureHeader (PDict d) = Err InvalidJWSHeader).
      { destruct d as [|kv d]; [reflexivity|]. unfold JsonWebSignatureHeader, validate_alg, has. rewrite El. reflexivity. }
      rewrite E. apply tells_fail. rewrite HI. intros (w & Hw). congruence. }
  apply tells_pass; [apply HI; eauto|].
  assert (Ene : d <> []) by (intros ->; discriminate).
  assert (HU : hashable w = false <-> (exists l, w = PList l) \/ (exists m, w = PDict m)).
  { destruct w; cbn [hashable]; split; try discriminate; eauto; intros [(? & E)|(? & E)]; discriminate. }
  assert (EA : forall e, validate_alg d = Err e -> JsonWebSignatureHeader (PDict d) = Err e).
  { intros e He. unfold JsonWebSignatureHeader. destruct d as [|kv d]; [congruence|]. rewrite He. reflexivity. }
  destruct (hashable w) eqn:Eh.
  2:{ destruct (proj1 HU eq_refl) as [(l & ->)|(l & ->)].
      - rewrite (EA TypeError); [|unfold validate_alg, has, dget; rewrite El; reflexivity]. apply tells_fail. rewrite HI. intros H. destruct (H _ El) as [H1 _]. destruct (H1 l eq_refl).
      - rewrite (EA TypeError); [|unfold validate_alg, has, dget; rewrite El; reflexivity]. apply tells_fail. rewrite HI. intros H. destruct (H _ El) as [_ H1]. destruct (H1 l eq_refl). }
  apply tells_pass.
  { apply HI. intros w' E'. assert (w' = w) as -> by congruence. split; intros l ->; discriminate. }
  destruct (validate_alg d) as [a|e] eqn:Ev.
  - assert (R : exists name, lookup (lit "alg") d = Some (PStr name) /\ In name registered).
    { apply validate_alg_ok in Ev. exists (alg_name a). split; [exact Ev|]. apply registered_spec. eauto. }
    apply tells_pass; [apply HI; exact R|]. apply tells_one.
    + rewrite HI. split.
      * intros Hv. exists {| hdict := full d; halg := a |}. apply header_iff. split; [exact Hv|]. split; [reflexivity|]. apply validate_alg_ok. exact Ev.
      * intros (h & Hh). apply header_iff in Hh. tauto.
    + intros e He. eapply validate_alg_err; eauto.
  - rewrite (EA e eq_refl). assert (e = UnsupportedAlgorithm) as ->.
    { unfold validate_alg, has, dget in Ev. rewrite El in Ev. cbn [negb] in Ev. destruct w; cbn [hashable] in *; try congruence.
      destruct (alg_of s); cbn [of_opt] in Ev; congruence. }
    apply tells_fail. rewrite HI. intros (name & Hl & Hr). apply registered_spec in Hr as (a & ->). apply validate_alg_ok in Hl. congruence.
Qed.
Lemma tells_header token hs ps ss hb v : segments token hs ps ss -> base64url_decode hs = Ok hb -> json_loads hb = Ok v ->
  tells (header_lines (has_header token)) (JsonWebSignatureHeader v).
Proof.
  intros Hs Hd Hj. apply tells_header_in. intros P.
  assert (D : (exists d, v = PDict d) \/ (forall d, v <> PDict d)) by (destruct v; eauto; right; discriminate).
  destruct D as [(d & ->)|D].
  - rewrite (has_header_iff token hs ps ss hb Hs Hd d P Hj). split; [eauto|intros (d' & [= <-] & H); exact H].
  - split; [intros H; exfalso; eapply has_header_not; eauto|intros (d & F & _); destruct (D _ F)].
Qed.

(** ** Keys *)
Lemma get_iff k d (Q : pyval -> Prop) : (truthy (dget (lit k) d) = true -> Q (dget (lit k) d)) <->
  (forall v, lookup (chars k) d = Some v -> false_value v \/ Q v).
Proof.
  change (chars k) with (lit k). unfold dget. split.
  - intros H v Hv. rewrite Hv in H. destruct (truthy v) eqn:T; [right; auto|left; apply false_spec; exact T].
  - intros H T. destruct (lookup (lit k) d) as [v|] eqn:E; [|discriminate]. destruct (H v eq_refl) as [F|F]; [|exact F].
    apply false_spec in F. congruence.
Qed.
Lemma key_names_iff k d : key_names k d <->
  (truthy (dget (lit "alg") (jdata k)) = true -> dget (lit "alg") (jdata k) = dget (lit "alg") d) /\
  (truthy (dget (lit "kid") d) = true -> dget (lit "kid") (jdata k) = dget (lit "kid") d) /\
  (truthy (dget (lit "use") (jdata k)) = true -> dget (lit "use") (jdata k) = PStr (lit "sig")).
Proof.
  unfold key_names. rewrite <- (get_iff "alg" (jdata k) (fun v => lookup (chars "alg") d = Some v)),
    <- (get_iff "kid" d (fun v => lookup (chars "kid") (jdata k) = Some v)), <- (get_iff "use" (jdata k) (fun v => v = PStr (chars "sig"))).
  change chars with lit.
  assert (G : forall k0 d0 v, truthy v = true -> (lookup (lit k0) d0 = Some v <-> v = dget (lit k0) d0)).
  { intros k0 d0 v T. unfold dget. destruct (lookup (lit k0) d0) as [w|]; split; intros H; try congruence; try discriminate. subst v. discriminate. }
  split; intros (H1 & H2 & H3); (split; [|split; [|exact H3]]).
  - intros T. apply G; auto.
  - intros T. symmetry. apply G; auto.
  - intros T. apply G; auto.
  - intros T. apply G; auto. symmetry. auto.
Qed.
Lemma raise_if_err b e e' : raise_if b e = Err e' -> b = true /\ e' = e.
Proof. unfold raise_if. destruct b; intros H; [injection H as <-; auto|discriminate]. Qed.
Definition key_checks token k : list (Prop * option exn) :=
  [(has_header token (key_names k), Some InvalidKey); (ops_listed k, Some TypeError); (ops_allow k, Some InvalidKey)].
Lemma tells_key_in d h k (N : Prop) : (N <-> key_names k d) -> NoDup (keys d) -> JsonWebSignatureHeader (PDict d) = Ok h ->
  tells [(N, Some InvalidKey); (ops_listed k, Some TypeError); (ops_allow k, Some InvalidKey)] (validate_key (Some k) h).
Proof.
  intros HI Hn Hh. pose proof (key_names_iff k d) as KN.
  pose proof (header_alg_get _ _ Hn Hh) as Ha. apply header_iff in Hh as ((_ & Ht & _) & Hdd & Hl).
  assert (Ha' : dget (lit "alg") d = PStr (alg_name (halg h))) by (unfold dget; rewrite Hl; auto).
  assert (Hk : truthy (dget (lit "kid") d) = true -> exists s, dget (lit "kid") d = PStr s).
  { unfold dget. destruct (lookup (lit "kid") d) as [v|] eqn:E; [|discriminate]. intros _. destruct (Ht (lit "kid") v) as (s & -> & _); [cbn; auto|exact E|eauto]. }
  assert (B : forall (t : bool) x s, (t && negb (py_eq x (PStr s)) = false) <-> (t = true -> x = PStr s)).
  { intros t x s. rewrite <- py_eq_str. destruct t, (py_eq x (PStr s)); cbn; split; auto; try congruence. intros H; discriminate (H eq_refl). }
  unfold validate_key. rewrite Ha, Hdd, dget_full by auto.
  destruct (raise_if (truthy (dget (lit "alg") (jdata k)) && negb (py_eq (dget (lit "alg") (jdata k)) (PStr (alg_name (halg h))))) InvalidKey) as [[]|e] eqn:E1.
  2:{ apply raise_if_err in E1 as [X ->]. cbn [rbind]. apply tells_fail. rewrite HI, KN, Ha'. intros (H & _). apply B in H. congruence. }
  apply raise_if_ok in E1. cbn [rbind]. pose proof (proj1 (B _ _ _) E1) as K1.
  assert (K2' : (truthy (dget (lit "kid") d) && negb (py_eq (dget (lit "kid") (jdata k)) (dget (lit "kid") d)) = false) <-> (truthy (dget (lit "kid") d) = true -> dget (lit "kid") (jdata k) = dget (lit "kid") d)).
  { destruct (truthy (dget (lit "kid") d)) eqn:T; [|split; [discriminate|reflexivity]]. destruct (Hk eq_refl) as (s & ->). apply (B true). }
  destruct (raise_if (truthy (dget (lit "kid") d) && negb (py_eq (dget (lit "kid") (jdata k)) (dget (lit "kid") d))) InvalidKey) as [[]|e] eqn:E2.
  2:{ apply raise_if_err in E2 as [X ->]. cbn [rbind]. apply tells_fail. rewrite HI, KN. intros (_ & H & _). apply K2' in H. congruence. }
  apply raise_if_ok in E2. cbn [rbind]. pose proof (proj1 K2' E2) as K2.
  destruct (raise_if (truthy (dget (lit "use") (jdata k)) && negb (py_eq (dget (lit "use") (jdata k)) (PStr (lit "sig")))) InvalidKey) as [[]|e] eqn:E3.
  2:{ apply raise_if_err in E3 as [X ->]. cbn [rbind]. apply tells_fail. rewrite HI, KN. intros (_ & _ & H). apply B in H. congruence. }
  apply raise_if_ok in E3. cbn [rbind]. pose proof (proj1 (B _ _ _) E3) as K3.
  apply tells_pass; [apply HI, KN; rewrite Ha'; auto|].
  assert (OL : ops_listed k <-> (truthy (dget (lit "key_ops") (jdata k)) = true -> (exists s, dget (lit "key_ops") (jdata k) = PStr s) \/ (exists l, dget (lit "key_ops") (jdata k) = PList l) \/ (exists d, dget (lit "key_ops") (jdata k) = PDict d)))
    by (symmetry; apply (get_iff "key_ops" (jdata k) (fun v => (exists s, v = PStr s) \/ (exists l, v = PList l) \/ (exists d, v = PDict d)))).
  assert (OA : ops_allow k <-> (truthy (dget (lit "key_ops") (jdata k)) = true ->
     (exists l, dget (lit "key_ops") (jdata k) = PList l /\ forall x, In x l -> x = PStr (lit "sign") \/ x = PStr (lit "verify")) \/
     (exists d, dget (lit "key_ops") (jdata k) = PDict d /\ forall x, In x (map fst d) -> x = lit "sign" \/ x = lit "verify")))
    by (symmetry; apply (get_iff "key_ops" (jdata k) (fun v => (exists l, v = PList l /\ forall x, In x l -> x = PStr (lit "sign") \/ x = PStr (lit "verify")) \/
       (exists d, v = PDict d /\ forall x, In x (map fst d) -> x = lit "sign" \/ x = lit "verify")))).
  destruct (truthy (dget (lit "key_ops") (jdata k))) eqn:T.
  2:{ apply tells_pass; [apply OL; discriminate|]. apply tells_pass; [apply OA; discriminate|]. apply tells_nil. }
  set (v := dget (lit "key_ops") (jdata k)) in *. clearbody v.
  assert (F : forall ops, existsb (fun op => negb (py_in op [PStr (lit "sign"); PStr (lit "verify")])) ops = false <-> forall x, In x ops -> x = PStr (lit "sign") \/ x = PStr (lit "verify")).
  { intros ops. split.
    - intros H x Hx. apply py_in_ops. destruct (py_in x _) eqn:Y; auto. rewrite <- H. apply existsb_exists. exists x. rewrite Y. auto.
    - intros H. destruct (existsb _ _) eqn:Y; auto. apply existsb_exists in Y as (x & Hx & Y). apply H, py_in_ops in Hx. rewrite Hx in Y. discriminate. }
  assert (R : forall ops (Q : Prop), iter_val v = Ok ops -> (Q <-> forall x, In x ops -> x = PStr (lit "sign") \/ x = PStr (lit "verify")) ->
    tells [(Q, Some InvalidKey)] (let! ops := iter_val v in raise_if (existsb (fun op => negb (py_in op [PStr (lit "sign"); PStr (lit "verify")])) ops) InvalidKey)).
  { intros ops Q Ei HQ. rewrite Ei. cbn [rbind]. apply tells_one.
    - rewrite HQ, <- F. unfold raise_if. destruct (existsb _ _); split; eauto; try discriminate. intros (? & E); discriminate.
    - intros e. unfold raise_if. destruct (existsb _ _); congruence. }
  assert (NT : (forall s, v <> PStr s) -> (forall l, v <> PList l) -> (forall d, v <> PDict d) -> iter_val v = Err TypeError).
  { intros H1 H2 H3. destruct v; try reflexivity; exfalso; [eapply H1|eapply H2|eapply H3]; reflexivity. }
  destruct v as [|b|z|f|s|l|dd] eqn:Ev;
    try (rewrite NT by discriminate; cbn [rbind]; apply tells_fail; rewrite OL; intros H; destruct (H eq_refl) as [(? & E)|[(? & E)|(? & E)]]; discriminate).
  - apply tells_pass; [apply OL; eauto|]. apply (R _ _ eq_refl). rewrite OA. destruct s as [|c s]; [discriminate|]. split.
    + intros H. destruct (H eq_refl) as [(? & E & _)|(? & E & _)]; discriminate.
    + intros H. exfalso. destruct (H (PStr [c])) as [E|E]; [left; reflexivity|discriminate|discriminate].
  - apply tells_pass; [apply OL; eauto|]. apply (R _ _ eq_refl). rewrite OA. split.
    + intros H. destruct (H eq_refl) as [(l' & E & K)|(? & E & _)]; [|discriminate]. injection E as <-. exact K.
    + intros H _. left. eauto.
  - apply tells_pass; [apply OL; eauto|]. apply (R _ _ eq_refl). rewrite OA. split.
    + intros H. destruct (H eq_refl) as [(? & E & _)|(l' & E & K)]; [discriminate|]. injection E as <-. intros x Hx. apply in_map_iff in Hx as (y & <- & Hy).
      destruct (K (fst y) (in_map fst _ _ Hy)) as [->| ->]; auto.
    + intros H _. right. exists dd. split; [reflexivity|]. intros x Hx. apply in_map_iff in Hx as (y & <- & Hy).
      destruct (H (PStr (fst y))) as [E|E]; [apply in_map_iff; exists y; auto|left; congruence|right; congruence].
Qed.
Lemma tells_key token hs ps ss hb d h k : segments token hs ps ss -> base64url_decode hs = Ok hb -> json_loads hb = Ok (PDict d) -> NoDup (keys d) ->
  JsonWebSignatureHeader (PDict d) = Ok h -> tells (key_checks token k) (validate_key (Some k) h).
Proof. intros Hs Hd Hj Hn Hh. apply (tells_key_in d); auto. exact (has_header_iff token hs ps ss hb Hs Hd d (key_names k) Hj). Qed.

(** ** Signatures *)
Lemma none_alg a : alg_name a = lit "none" <-> a = Anone.
Proof. split; [|intros ->; reflexivity]. intros H. apply alg_name_inj. exact H. Qed.
Lemma key_suits_iff a m : a <> Anone -> (key_suits m (alg_name a) <-> alg_fits a m).
Proof.
  intros Ha. assert (IM : forall (l : list (str * hash)), In (alg_name a) (map fst l) <-> exists h, In (alg_name a, h) l).
  { intros l. rewrite in_map_iff. split; [intros ([n h] & E & H); cbn [fst] in E; subst; eauto|intros (h & H); exists (alg_name a, h); auto]. }
  destruct m as [s|n e o|c x y o]; cbn [key_suits].
  - rewrite IM. split.
    + intros (h & H). apply hs_in in H. subst. exact I.
    + intros H. destruct a; cbn [alg_fits] in H; try (exfalso; exact H). exists h. apply hs_in. reflexivity.
  - rewrite !IM. split.
    + intros [(h & H)|(h & H)]; [apply rs_in in H|apply ps_in in H]; subst; exact I.
    + intros H. destruct a; cbn [alg_fits] in H; try (exfalso; exact H); [left; exists h; apply rs_in; reflexivity|right; exists h; apply ps_in; reflexivity].
  - split.
    + intros (h & H). apply es_in in H as [-> ->]. reflexivity.
    + intros H. destruct a; cbn [alg_fits] in H; try (exfalso; exact H). exists h. apply es_in. auto.
Qed.
Lemma mat_verify_err C a m sig data e : a <> Anone -> alg_fits a m -> mat_verify C m sig data (alg_hash a) (alg_padding a) = Err e ->
  (key_has_room m (alg_name a) /\ e = InvalidSignature) \/ (~ key_has_room m (alg_name a) /\ e = ValueError).
Proof.
  intros Ha F H. destruct a as [|h|h|h|h]; try congruence; destruct m as [s|n ee o|c x y o]; try (exfalso; exact F);
    cbn [mat_verify alg_hash alg_padding padding_fits negb] in H.
  - left. split; [intros ? ? ? ? E; discriminate|]. destruct (eqs _ _); congruence.
  - left. split; [intros ? ? ? h' E Hin; apply ps_in in Hin; discriminate|]. destruct (c_rsa_verify _ _ _ _ _ _ _); congruence.
  - left. split; [intros ? ? ? ? E; discriminate|]. destruct (der_parse _); [destruct (_ && _)|]; congruence.
  - destruct (Nat.leb (digest_size h + 2) (byte_len n)) eqn:L; cbn [negb] in H.
    + left. apply Nat.leb_le in L. split; [|destruct (c_rsa_verify _ _ _ _ _ _ _); congruence].
      intros n' e' o' h' E Hin. injection E as <- <- <-. apply ps_in in Hin. injection Hin as <-. exact L.
    + right. apply Nat.leb_gt in L. split; [|congruence]. intros R. assert (digest_size h + 2 <= byte_len n)%nat; [|lia]. apply (R n ee o h eq_refl). apply ps_in. reflexivity.
Qed.
Lemma mat_verify_room C a m sig data : a <> Anone -> alg_fits a m -> mat_verify C m sig data (alg_hash a) (alg_padding a) = Ok tt -> key_has_room m (alg_name a).
Proof.
  intros Ha F H n e o h -> Hin. apply ps_in in Hin. subst a. cbn [mat_verify alg_hash alg_padding padding_fits] in H.
  destruct (Nat.leb (digest_size h + 2) (byte_len n)) eqn:L; [apply Nat.leb_le; exact L|discriminate].
Qed.
Definition sig_checks C token k : list (Prop * option exn) :=
  let signed P := has_parts token (fun name hs ps ss => name = chars "none" \/ P name hs ps ss) in
  [(signed (fun name hs ps ss => key_suits (jmat k) name), Some InvalidKey);
   (signed (fun name hs ps ss => exists sig, url_octets ss sig), Some InvalidSignature);
   (signed (fun name hs ps ss => key_has_room (jmat k) name), Some ValueError);
   (signed (fun name hs ps ss => exists sig, url_octets ss sig /\ accepts C (jmat k) name sig (hs ++ 46 :: ps)), Some InvalidSignature)].
Lemma tells_sig C token hs ps ss hb d a k : segments token hs ps ss -> base64url_decode hs = Ok hb -> json_loads hb = Ok (PDict d) ->
  lookup (lit "alg") d = Some (PStr (alg_name a)) -> constructible C k ->
  (truthy (dget (lit "alg") (jdata k)) = true -> dget (lit "alg") (jdata k) = PStr (alg_name a)) ->
  tells (sig_checks C token k) (alg_verify C a ss (hs ++ 46 :: ps) (Some k)).
Proof.
  intros Hs Hd Hj Hl Hk Hal. unfold sig_checks. cbv zeta.
  pose proof (fun P => has_parts_iff token hs ps ss hb Hs Hd d _ P Hj Hl) as HI.
  assert (D : a = Anone \/ a <> Anone) by (destruct a; [left; reflexivity|right; discriminate..]). destruct D as [->|Ha].
  { do 4 (apply tells_pass; [apply HI; left; reflexivity|]). apply tells_nil. }
  assert (Hn : alg_name a <> chars "none") by (intros E; apply none_alg in E; auto).
  assert (E : alg_verify C a ss (hs ++ 46 :: ps) (Some k) =
     let! k := alg_validate_key a (Some k) in
      match base64url_decode ss with
      | Err BinasciiError => Err InvalidSignature
      | Err e => Err e
      | Ok raw => mat_verify C (jmat k) raw (hs ++ 46 :: ps) (alg_hash a) (alg_padding a)
      end) by (destruct a; [congruence|auto..]). rewrite E. clear E.
  destruct (alg_validate_key a (Some k)) as [k'|e] eqn:Ek; cbn [rbind].
  2:{ assert (e = InvalidKey) as ->.
      { unfold alg_validate_key in Ek. destruct (_ && _); [congruence|]. destruct (negb _); [congruence|]. destruct (alg_curve a); [destruct (negb _)|]; congruence. }
      apply tells_fail. rewrite HI. intros [H|H]; [auto|]. apply key_suits_iff in H; [|exact Ha].
      assert (alg_validate_key a (Some k) = Ok k) by (apply (alg_validate_key_ok C); auto). congruence. }
  apply (alg_validate_key_ok C) in Ek as (-> & _ & F); auto.
  apply tells_pass; [apply HI; right; apply key_suits_iff; auto|].
  destruct (base64url_decode ss) as [sig|e] eqn:Eb.
  2:{ pose proof (base64url_decode_err _ _ Eb) as ->. apply tells_fail. rewrite HI. intros [H|(sig & H)]; [auto|]. apply url_octets_iff in H. congruence. }
  apply tells_pass; [apply HI; right; exists sig; apply url_octets_iff; exact Eb|].
  destruct (mat_verify C (jmat k) sig (hs ++ 46 :: ps) (alg_hash a) (alg_padding a)) as [[]|e] eqn:Ev.
  - apply tells_pass; [apply HI; right; eapply mat_verify_room; eauto|].
    apply tells_pass; [|apply tells_nil]. apply HI. right. exists sig. split; [apply url_octets_iff; exact Eb|]. apply mat_verify_iff; auto.
  - destruct (mat_verify_err _ _ _ _ _ _ Ha F Ev) as [[R ->]|[R ->]].
    + apply tells_pass; [apply HI; right; exact R|]. apply tells_fail. rewrite HI. intros [H|(sig' & H1 & H2)]; [auto|].
      apply url_octets_iff in H1. assert (sig' = sig) as -> by congruence. apply mat_verify_iff in H2; auto. congruence.
    + apply tells_fail. rewrite HI. intros [H|H]; auto.
Qed.

(** ** deserialize *)
Lemma tells_deserialize C token key algv v : (forall k, key = Some k -> constructible C k) ->
  tells (jws_checks C token key algv v) (deserialize C token key algv v).
Proof.
  intros Hk. unfold jws_checks, deserialize.
  destruct (Nat.eq_dec (dots token) 2) as [Hdots|Hdots].
  2:{ assert (E : forall A (f : bytes -> bytes -> bytes -> A) (g : A), match split_on 46 token with [hs; ps; ss] => f hs ps ss | _ => g end = g).
      { intros A f g. destruct (split_on 46 token) as [|hs [|ps [|ss [|? ?]]]] eqn:E; auto. destruct Hdots. apply split3_dots. eauto. }
      rewrite E. apply tells_fail. exact Hdots. }
  apply tells_pass; [exact Hdots|]. apply split3_dots in Hdots as (hs & ps & ss & Es). rewrite Es. apply split3 in Es.
  destruct (base64url_decode hs) as [hb|e] eqn:Eh; cbn [rbind].
  2:{ rewrite (base64url_decode_err _ _ Eh). apply tells_fail. intros (hs' & ps' & ss' & hb & H1 & H2).
      destruct (segments_inj _ _ _ _ _ _ _ H1 Es) as (-> & -> & ->). apply url_octets_iff in H2. congruence. }
  apply tells_pass; [exists hs, ps, ss, hb; split; [exact Es|apply url_octets_iff; exact Eh]|].
  assert (Bb : bytes_ok hb) by (eapply base64url_decode_bytes_ok; eauto).
  destruct (json_loads hb) as [hv|e] eqn:Ej; cbn [rbind].
  2:{ assert (e = JSONDecodeError) as -> by (unfold json_loads in Ej; apply loads_err in Ej; auto). apply tells_fail.
      intros (hs' & ps' & ss' & hb' & hv & H1 & H2 & H3). destruct (segments_inj _ _ _ _ _ _ _ H1 Es) as (-> & -> & ->).
      apply url_octets_iff in H2. assert (hb' = hb) as -> by congruence. apply json_octets_loads in H3; auto. congruence. }
  apply tells_pass; [exists hs, ps, ss, hb, hv; split; [exact Es|]; split; [apply url_octets_iff; exact Eh|apply json_octets_loads; auto]|].
  change (tells (header_lines (has_header token) ++ ((false_value algv \/ has_header token (fun d => lookup (chars "alg") d = Some algv), Some InvalidJWSSerialization) ::
     (if v then signature_checks C token key else []) ++ [(exists hs ps ss b, segments token hs ps ss /\ url_octets ps b, Some BinasciiError)]))
     (let! h := JsonWebSignatureHeader hv in
      let! _ := raise_if (truthy algv && negb (py_eq (dget (lit "alg") (hdict h)) algv)) InvalidJWSSerialization in
      let! _ := (if v then let! _ := validate_key key h in alg_verify C (halg h) ss (hs ++ 46 :: ps) key else Ok tt) in
      let! payload := base64url_decode ps in Ok {| jheader := h; jpayload := payload |})).
  apply tells_bind; [repeat constructor; discriminate|eapply tells_header; eauto|]. intros h Hh.
  destruct (header_nondict _ _ Hh) as (d & -> & _).
  assert (Hn : NoDup (keys d)) by (apply json_loads_dict in Ej; tauto).
  pose proof (fun P => has_header_iff token hs ps ss hb Es Eh d P Ej) as HI.
  pose proof (header_alg_get _ _ Hn Hh) as Ha. pose proof Hh as Hh'. apply header_iff in Hh' as (_ & Hdd & Hl).
  rewrite Ha.
  destruct (truthy algv && negb (py_eq (PStr (alg_name (halg h))) algv)) eqn:Ep; cbn [raise_if rbind].
  { apply andb_prop in Ep as [T Ep]. apply tells_fail. rewrite HI. change (chars "alg") with (lit "alg"). intros [H|H].
    - apply false_spec in H. congruence.
    - rewrite Hl in H. injection H as <-. cbn [py_eq] in Ep. rewrite eqs_refl in Ep. discriminate. }
  apply tells_pass.
  { destruct (truthy algv) eqn:T; [|left; apply false_spec; exact T]. right. apply HI. change (chars "alg") with (lit "alg"). rewrite Hl. f_equal. symmetry.
    apply negb_false_iff in Ep. destruct algv; try discriminate. cbn [py_eq] in Ep. apply eqs_true in Ep. congruence. }
  apply tells_bind.
  { destruct v; [|constructor]. unfold signature_checks. destruct key; repeat constructor; discriminate. }
  { destruct v; [|apply tells_nil]. destruct key as [k|]; [|cbn [validate_key rbind signature_checks]; apply tells_fail; auto].
    change (tells (key_checks token k ++ sig_checks C token k) (let! _ := validate_key (Some k) h in alg_verify C (halg h) ss (hs ++ 46 :: ps) (Some k))).
    apply tells_bind; [repeat constructor; discriminate|eapply tells_key; eauto|]. intros [] Hv.
    eapply tells_sig; eauto. apply (validate_key_iff k d h Hn Hh) in Hv as (Hv & _). intros T. rewrite (Hv (proj1 (true_spec _) T)). unfold dget. rewrite Hl. reflexivity. }
  intros _ _. apply tells_one.
  - split.
    + intros (hs' & ps' & ss' & b & H1 & H2). destruct (segments_inj _ _ _ _ _ _ _ H1 Es) as (-> & -> & ->). apply url_octets_iff in H2. rewrite H2. cbn [rbind]. eauto.
    + intros (j & H). apply rbind_ok in H as (b & H & _). exists hs, ps, ss, b. split; [exact Es|apply url_octets_iff; exact H].
  - intros e He. apply rbind_err in He as [He|(? & _ & He)]; [eapply base64url_decode_err; eauto|discriminate].
Qed.

(** ** Claims *)
Lemma tells_time c name bad ok e : (forall z, bad z = false <-> ok z) ->
  tells [(time_claim c name, Some InvalidJWTClaim); (time_within c name ok, Some e)] (check_time name bad e c).
Proof.
  intros Hb. unfold check_time, time_claim, time_within. change (chars name) with (lit name). unfold dget.
  destruct (lookup (lit name) c) as [v|] eqn:El.
  2:{ cbn [truthy]. do 2 (apply tells_pass; [discriminate|]). apply tells_nil. }
  destruct (truthy v) eqn:T.
  - destruct v as [|b|z|f|s|l|d]; try discriminate;
      try (apply tells_fail; intros H; destruct (H _ eq_refl) as [F|(z & F)]; [apply false_spec in F; congruence|discriminate]).
    apply tells_pass; [intros w E; injection E as <-; eauto|]. apply tells_one.
    + split.
      * intros H. destruct (H z eq_refl) as [->|H1]; [discriminate|]. apply Hb in H1. rewrite H1. cbn [raise_if]. eauto.
      * intros (u & H). apply raise_if_ok in H || idtac. destruct (bad z) eqn:B; [discriminate|]. intros z' E. injection E as <-. right. apply Hb. exact B.
    + intros e' H. apply raise_if_err in H. tauto.
  - apply false_spec in T. apply tells_pass; [intros w E; injection E as <-; auto|]. apply tells_pass; [|apply tells_nil].
    intros z E. injection E as ->. left. apply false_spec in T. cbn [truthy] in T. lia.
Qed.
Lemma tells_text c name : tells [(text_claim c name, Some InvalidJWTClaim)] (check_str name c).
Proof.
  apply tells_one.
  - unfold text_claim, check_str. change (chars name) with (lit name). unfold dget. destruct (lookup (lit name) c) as [v|]; cbn [is_none is_str negb andb].
    + split.
      * intros H. destruct (H v eq_refl) as [->|(s & ->)]; cbn; eauto.
      * intros (u & H) w E. injection E as <-. destruct v; cbn in H; try discriminate; eauto.
    + split; [cbn; eauto|]. intros _ v E. discriminate.
  - intros e' H. apply raise_if_err in H. tauto.
Qed.
Lemma tells_aud c : tells [(audience_claim c, Some InvalidJWTClaim)] (check_aud c).
Proof.
  apply tells_one.
  - unfold audience_claim, check_aud. change (chars "aud") with (lit "aud"). unfold dget. destruct (lookup (lit "aud") c) as [v|].
    2:{ cbn [truthy]. split; [eauto|]. intros _ v E. discriminate. }
    destruct (truthy v) eqn:T.
    + split.
      * intros H. destruct (H v eq_refl) as [F|[(s & ->)|(l & -> & Hl)]]; [apply false_spec in F; congruence|eauto|].
        replace (existsb (fun x => negb (is_str x)) l) with false; [cbn; eauto|]. symmetry. destruct (existsb _ l) eqn:E; auto.
        apply existsb_exists in E as (x & Hx & E). destruct (Hl x Hx) as (s & ->). discriminate.
      * intros (u & H) w E. injection E as <-. right. destruct v; try discriminate; [eauto|]. right. exists l. split; [reflexivity|].
        destruct (existsb _ l) eqn:X; [discriminate|]. intros x Hx. destruct x; eauto; exfalso;
          (assert (Y : existsb (fun x => negb (is_str x)) l = true) by (apply existsb_exists; eexists; split; [exact Hx|reflexivity]); congruence).
    + split; [eauto|]. intros _ w E. injection E as <-. left. apply false_spec. exact T.
  - intros e' H. unfold check_aud in H. cbv zeta in H. destruct (truthy _); [|discriminate].
    destruct (dget _ _); try congruence; try discriminate. apply raise_if_err in H. tauto.
Qed.
Lemma tells_claims now c : tells (claim_checks now (fun P => P c)) (validate_default_claims now c).
Proof.
  unfold claim_checks, validate_default_claims.
  apply (tells_bind [_]); [repeat constructor; discriminate|apply tells_aud|intros _ _].
  apply (tells_bind [_; _]); [repeat constructor; discriminate|apply tells_time; intros; lia|intros _ _].
  apply (tells_bind [_; _]); [repeat constructor; discriminate|apply tells_time; intros; lia|intros _ _].
  apply (tells_bind [_]); [repeat constructor; discriminate|apply tells_text|intros _ _].
  apply (tells_bind [_]); [repeat constructor; discriminate|apply tells_text|intros _ _].
  apply (tells_bind [_; _]); [repeat constructor; discriminate|apply tells_time; intros; lia|intros _ _].
  apply tells_text.
Qed.
Lemma tells_ext {A} l l' (r : result A) : Forall2 (fun x y => (fst x <-> fst y) /\ snd x = snd y) l l' -> tells l r -> tells l' r.
Proof.
  intros F T v. rewrite <- (T v). clear T. induction F as [|[P w] [Q w'] l l' [H1 H2] F IH]; cbn [decided]; [reflexivity|].
  cbn [fst snd] in *. subst w'. rewrite IH. tauto.
Qed.
Lemma tells_claims_in now c (f : (pdict -> Prop) -> Prop) : (forall P, f P <-> P c) -> tells (claim_checks now f) (validate_default_claims now c).
Proof.
  intros H. eapply tells_ext; [|apply tells_claims]. unfold claim_checks. repeat (constructor; [split; [cbn [fst]; symmetry; apply H|reflexivity]|]). constructor.
Qed.
Lemma claims_full now c : NoDup (keys c) -> validate_default_claims now (full c) = validate_default_claims now c.
Proof. intros H. unfold validate_default_claims, check_aud, check_time, check_str. rewrite !dget_full by exact H. reflexivity. Qed.

(** ** Options *)
Lemma stops_dec c kv : stops c kv \/ ~ stops c kv.
Proof.
  destruct kv as [n v]. destruct v as [| | | | | |o]; try (right; intros (o1 & l1 & i1 & x1 & E & _); cbn [snd] in E; discriminate).
  destruct (dget (lit "values") o) as [| | | | |l|] eqn:E1; try (right; intros (o1 & l1 & i1 & x1 & E & F & _); cbn [snd] in E; injection E as <-; congruence).
  destruct (dget n c) as [| | | | |items|] eqn:E2; try (right; intros (o1 & l1 & i1 & x1 & _ & _ & F & _); cbn [fst] in F; congruence).
  destruct (existsb (fun x => py_in x l) items) eqn:E3.
  - left. apply existsb_exists in E3 as (x & H1 & H2). apply among_iff in H2. exists o, l, items, x. auto.
  - right. intros (o' & l' & i & x & E & F & G & H1 & H2). cbn [fst snd] in *. injection E as <-. rewrite E1 in F. injection F as <-. rewrite E2 in G. injection G as <-. apply among_iff in H2.
    assert (existsb (fun x => py_in x l) items = true) by (apply existsb_exists; eauto). congruence.
Qed.
Lemma options_iff c options : validate_claims options c = Ok tt <-> options_met options c.
Proof.
  split.
  - intros H pre name o post -> Hs. eapply p_options_partial; eauto.
  - induction options as [|[n v] r IH]; intros H; auto. cbn [validate_claims].
    assert (D : (exists o, v = PDict o) \/ (forall o, v <> PDict o)) by (destruct v; eauto; right; discriminate).
    assert (IH' : ~ stops c (n, v) -> validate_claims r c = Ok tt).
    { intros Hs. apply IH. intros pre name o post -> Hp. apply (H ((n, v) :: pre) name o post eq_refl). intros kv [<-|Hk]; auto. }
    destruct D as [(o & ->)|D].
    2:{ assert (E : validate_claims r c = Ok tt) by (apply IH'; intros (o & l & i & x & E & _); eapply D; exact E). destruct v; auto. destruct (D d eq_refl). }
    assert (Ho : option_met c n o) by (apply (H [] n o r eq_refl); intros ? []). apply option_iff in Ho as (H1 & H2 & H3).
    replace (truthy (dget (lit "essential") o) && is_none (dget n c)) with false.
    2:{ destruct (truthy (dget (lit "essential") o)); auto. specialize (H1 eq_refl). destruct (dget n c); auto; congruence. }
    replace (truthy (dget (lit "value") o) && negb (py_eq (dget n c) (dget (lit "value") o))) with false.
    2:{ destruct (truthy (dget (lit "value") o)); auto. rewrite H2; auto. }
    cbn [raise_if rbind]. destruct (stops_dec c (n, PDict o)) as [S|S].
    + destruct S as (o' & l & items & x & E & El & Ei & Hx & Hl). apply among_iff in Hl. injection E as <-. cbn [fst] in Ei. rewrite El, Ei.
      assert (T : truthy (PList l) = true) by (destruct l; [discriminate Hl|reflexivity]). rewrite T.
      replace (existsb (fun x => py_in x l) items) with true; [reflexivity|]. symmetry. apply existsb_exists. eauto.
    + specialize (IH' S). destruct (truthy (dget (lit "values") o)); auto. destruct (H3 eq_refl) as (l & El & H4). rewrite El.
      match goal with |- (if ?b then _ else _) = _ => destruct b eqn:B end; auto.
      destruct H4 as [->|(items & x & E & Hx & Hl)]; auto. destruct S. apply stops_iff. exists o, l, items, x. auto.
Qed.
Lemma options_err options c e : validate_claims options c = Err e -> e = InvalidJWTClaim.
Proof.
  induction options as [|[n v] r IH]; cbn [validate_claims]; [discriminate|]. destruct v; auto. cbv zeta. intros H.
  apply rbind_err in H as [H|(? & _ & H)]; [apply raise_if_err in H; tauto|]. apply rbind_err in H as [H|(? & _ & H)]; [apply raise_if_err in H; tauto|].
  destruct (truthy _); auto. destruct (dget (lit "values") d); try congruence. match type of H with (if ?b then _ else _) = _ => destruct b end; [discriminate|].
  apply rbind_err in H as [H|(? & _ & H)]; [apply raise_if_err in H; tauto|auto].
Qed.

(** ** Writing *)
Lemma in_utf8_iff s : in_utf8 s <-> scalar_str s.
Proof.
  unfold in_utf8. split.
  - intros (b & H). apply utf8_rfc in H. apply utf8_encode_ok in H. tauto.
  - intros H. destruct (utf8_encode_scalar _ H) as (b & Hb). exists b. apply utf8_rfc. exact Hb.
Qed.
Lemma writable_iff v : writable v <-> scalar_val v.
Proof.
  induction v as [|b|z|s|s|l HF|d HF] using pyval_ind'; cbn [writable scalar_val]; try reflexivity; try apply in_utf8_iff.
  - induction HF as [|x l Hx HF IH]; cbn [fold_right]; [reflexivity|]. rewrite Hx, IH. reflexivity.
  - induction HF as [|x l Hx HF IH]; cbn [fold_right]; [reflexivity|]. rewrite Hx, IH, in_utf8_iff. reflexivity.
Qed.
Lemma scalar_join_inv sep l : scalar_str (join sep l) -> Forall scalar_str l.
Proof.
  induction l as [|x l IH]; [constructor|]. destruct l as [|y l]; cbn [join]; intros H; [repeat constructor; exact H|].
  apply Forall_app in H as [H1 H2]. apply Forall_app in H2 as [_ H2]. constructor; auto.
Qed.
Lemma dumps_str_scalar s : scalar_str (dumps_str s) -> scalar_str s.
Proof.
  unfold dumps_str. intros H. inversion H as [|? ? _ H']; subst. apply Forall_app in H' as [H' _]. clear H.
  induction s as [|c s IH]; [constructor|]. cbn [flat_map] in H'. apply Forall_app in H' as [H1 H2]. constructor; [|apply IH; exact H2].
  unfold esc1 in H1. repeat match type of H1 with context [if ?b then _ else _] => destruct b eqn:? end;
    try (unfold is_scalar; lia). inversion H1; auto.
Qed.
Lemma dumps_scalar v : scalar_str (dumps v) -> scalar_val v.
Proof.
  induction v as [|b|z|s|s|l HF|d HF] using pyval_ind'; intros H; try exact I.
  - exact H.
  - apply dumps_str_scalar. exact H.
  - apply scalar_list. cbn [dumps] in H. inversion H as [|? ? _ H']; subst. apply Forall_app in H' as [H' _]. apply scalar_join_inv in H'.
    rewrite Forall_forall in *. intros x Hx. apply HF; auto. apply H'. apply in_map. exact Hx.
  - apply scalar_dict. cbn [dumps] in H. inversion H as [|? ? _ H']; subst. apply Forall_app in H' as [H' _]. apply scalar_join_inv in H'.
    rewrite Forall_forall in *. intros [k v] Hx. cbn [fst snd].
    assert (K : scalar_str (dumps_str k ++ [58; 32] ++ dumps v)) by (apply H'; apply in_map_iff; exists (k, v); auto).
    apply Forall_app in K as [K1 K2]. apply Forall_app in K2 as [_ K2]. split; [apply dumps_str_scalar; exact K1|apply (HF (k, v)); auto].
Qed.
Lemma tells_write v : tells [(writable v, Some UnicodeEncodeError)] (to_bytes (json_dumps v)).
Proof.
  apply tells_one.
  - rewrite writable_iff. split.
    + intros H. apply utf8_encode_scalar, scalar_dumps. exact H.
    + intros (b & H). apply utf8_encode_ok in H as [H _]. apply dumps_scalar. exact H.
  - intros e H. unfold to_bytes in H. revert e H. generalize (json_dumps v). induction s as [|c s IH]; cbn [utf8_encode]; [discriminate|].
    intros e. destruct (enc1 c); [|congruence]. intros H. apply rbind_err in H as [H|(? & _ & H)]; [eauto|discriminate].
Qed.

(** ** decode *)
Lemma tells_decode C now1 now2 token key algv v options : (forall k, key = Some k -> constructible C k) ->
  tells (jwt_checks C now1 now2 token key algv v options) (jwt_decode C now1 now2 token key algv v options).
Proof.
  intros Hk. unfold jwt_checks, jwt_decode. apply tells_bind.
  { unfold jws_checks, signature_checks. destruct v, key; repeat constructor; discriminate. }
  { apply tells_deserialize. exact Hk. }
  intros j Hj. destruct (deserialize_header _ _ _ _ _ _ Hj) as (hs & ps & ss & hb & hs' & d & H1 & H2 & H3 & H4 & H5 & H6 & H7 & H8).
  assert (Bp : bytes_ok (jpayload j)) by (eapply base64url_decode_bytes_ok; eauto).
  apply (tells_bind [_]); [repeat constructor; discriminate| |].
  { apply tells_one.
    - split.
      + intros (hs1 & ps1 & ss1 & b & w & A1 & A2 & A3). destruct (segments_inj _ _ _ _ _ _ _ A1 H1) as (-> & -> & ->).
        apply url_octets_iff in A2. assert (b = jpayload j) as -> by congruence. apply json_octets_loads in A3; eauto.
      + intros (w & Hw). exists hs, ps, ss, (jpayload j), w. split; [exact H1|]. split; [apply url_octets_iff; assumption|]. apply json_octets_loads; auto.
    - intros e He. unfold json_loads in He. apply loads_err in He. exact He. }
  intros w Hw.
  assert (D : (exists c, w = PDict c) \/ (forall c, w <> PDict c)) by (destruct w; eauto; right; discriminate).
  destruct D as [(c & ->)|D].
  2:{ assert (E : forall A (f : _ -> result A), rbind (JsonWebTokenClaims now1 w (if v then options else PNone)) f = Err InvalidJWTClaim).
      { intros A f. destruct w as [| | | | | |c]; try reflexivity. destruct (D c eq_refl). }
      rewrite E. apply tells_fail. eapply has_claims_not; eauto. }
  assert (HI : forall P, has_claims token P <-> P c) by (intros P; eapply has_claims_iff; eauto).
  assert (Hn : NoDup (keys c)) by (apply json_loads_dict in Hw; tauto).
  destruct c as [|kv c']; [apply tells_fail; rewrite HI; auto|]. set (c := kv :: c') in *.
  apply tells_pass; [apply HI; discriminate|].
  match goal with |- tells ?l ?r => replace r with
    (let! _ := validate_default_claims now1 c in
     let! _ := match (if v then options else PNone) with PDict o => validate_claims o c | _ => Ok tt end in
     JsonWebToken now2 (PDict (FullDict c [])) (PDict (hdict (jheader j)))) end.
  2:{ unfold JsonWebTokenClaims, claims_init. unfold c at 3. fold c. destruct (validate_default_claims now1 c); cbn [rbind]; auto.
      destruct (if v then options else PNone) as [| | | | | |oo]; try reflexivity. destruct (validate_claims oo c); reflexivity. }
  change (app ?a ?b) with (app a b). apply tells_bind; [repeat constructor; discriminate|apply tells_claims_in; exact HI|intros _ _].
  apply (tells_bind [_]); [repeat constructor; discriminate| |intros _ _].
  { apply tells_one.
    - split.
      + intros H. destruct v; [|eauto]. destruct options as [| | | | | |o]; eauto. exists tt. apply options_iff. apply HI. apply H; reflexivity.
      + intros ([] & H) -> o ->. apply HI. apply options_iff. exact H.
    - intros e H. destruct (if v then options else PNone); try discriminate. eapply options_err; eauto. }
  unfold JsonWebToken. rewrite (header_again _ _ H5 H6). cbn [rbind]. rewrite FullDict_nil.
  assert (NE : (exists k x, In (k, x) c /\ x <> PNone) <-> full c <> []).
  { split.
    - intros (k & x & Hin & Hx) E. assert (In (k, x) (full c)); [|rewrite E in H; exact H]. unfold full. apply filter_In. split; [exact Hin|]. cbn [snd]. destruct x; auto; congruence.
    - intros E. destruct (full c) as [|[k x] r] eqn:F; [congruence|]. exists k, x. assert (In (k, x) (full c)) by (rewrite F; left; reflexivity).
      unfold full in H. apply filter_In in H as [Ha Hb]. split; [exact Ha|]. intros ->. discriminate. }
  destruct (full c) as [|q qs] eqn:Ef.
  { apply tells_fail. rewrite HI, NE. auto. }
  apply tells_pass; [apply HI, NE; discriminate|].
  match goal with |- tells ?l ?r => replace r with
    (let! _ := validate_default_claims now2 (full c) in
     let! payload := to_bytes (json_dumps (PDict (full c))) in
     Ok {| tclaims := full c; tjws := {| jheader := jheader j; jpayload := payload |} |}) end.
  2:{ unfold JsonWebTokenClaims, claims_init. rewrite <- Ef. destruct (validate_default_claims now2 (full c)); cbn [rbind]; auto. rewrite FullDict_nil, full_idem. reflexivity. }
  rewrite (claims_full now2 c Hn). apply tells_bind; [repeat constructor; discriminate|apply tells_claims_in; exact HI|intros _ _].
  apply (tells_iff _ (writable (PDict (full c)))); [rewrite HI, without_none_full; reflexivity|].
  apply (tells_bind [_] []); [repeat constructor; discriminate|apply tells_write|intros; apply tells_nil].
Qed.
Lemma r_decode_iff C now1 now2 token key algv v options t :
  jwt_decode C now1 now2 token key algv v options = Ok t <->
  exists j c, deserialize C token key algv v = Ok j /\
    json_object (jpayload j) c /\ c <> [] /\ without_none c <> [] /\
    claims_met now1 c /\ claims_met now2 c /\
    (v = true -> forall o, options = PDict o -> options_met o c) /\
    tclaims t = without_none c /\ jheader (tjws t) = jheader j /\
    octets_of (PDict (without_none c)) (jpayload (tjws t)).
Proof.
  rewrite p_decode_iff. split.
  - intros (j & s & c & H1 & H2 & H3 & H4 & H5 & H6 & H7 & H8 & H9 & H10 & H11). exists j, c. pose proof (json_object_loads _ _ _ H2 H3).
    do 6 (split; [solve [auto]|]). split; [intros Hv o Ho; apply options_iff; auto|]. split; [auto|]. split; [auto|]. apply octets_iff. exact H11.
  - intros (j & c & H1 & H2 & H4 & H5 & H6 & H7 & H8 & H9 & H10 & H11). apply json_object_iff in H2 as (s & H2 & H3). exists j, s, c.
    do 7 (split; [solve [auto]|]). split; [intros Hv o Ho; apply options_iff; auto|]. split; [auto|]. split; [auto|]. apply octets_iff. exact H11.
Qed.
Lemma c132 C token key algv v e : (forall k, key = Some k -> constructible C k) ->
  (decided (jws_checks C token key algv v) None e <->
   match deserialize C token key algv v with Ok _ => e = None | Err x => e = Some x end).
Proof. intros H. rewrite (tells_deserialize _ _ _ _ _ H e). destruct (deserialize _ _ _ _ _); reflexivity. Qed.
Lemma c133 C now1 now2 token key algv v options e : (forall k, key = Some k -> constructible C k) ->
  (decided (jwt_checks C now1 now2 token key algv v options) None e <->
   match jwt_decode C now1 now2 token key algv v options with Ok _ => e = None | Err x => e = Some x end).
Proof. intros H. rewrite (tells_decode _ _ _ _ _ _ _ _ H e). destruct (jwt_decode _ _ _ _ _ _ _ _); reflexivity. Qed.

(** ** C37 *)
Lemma c37_iff now v options r : JsonWebTokenClaims now v (PDict options) = Ok r <->
  exists c, v = PDict c /\ c <> [] /\ claims_met now c /\ options_met options c /\ r = without_none c.
Proof.
  split.
  - intros H. apply claims_init_ok in H as (H & Ho). apply p_claims_iff in H as (c & -> & Hc & Hm & ->). exists c. do 3 (split; [auto|]). split; [|reflexivity].
    apply options_iff. apply Ho; reflexivity.
  - intros (c & -> & Hc & Hm & Ho & ->). apply claims_init_intro; [apply p_claims_iff; eauto|]. intros o [= <-]. apply options_iff. exact Ho.
Qed.
Lemma c37_break now c name items x l o rest : claims_met now c ->
  dget name c = PList items -> In x items -> among x l ->
  dget (lit "values") o = PList l -> false_value (dget (lit "value") o) ->
  JsonWebTokenClaims now (PDict c) (PDict ((name, PDict o) :: rest)) = Ok (without_none c).
Proof.
  intros Hm Hd Hx Ha Hv Hf. apply claims_init_intro.
  - apply p_claims_iff. exists c. split; [reflexivity|]. split; [intros ->; discriminate|auto].
  - intros o' [= <-]. eapply p_options_break; eauto.
Qed.
Lemma c37_falsy now c name v : claims_met now c -> c <> [] -> false_value v ->
  JsonWebTokenClaims now (PDict c) (PDict [(name, PDict [(lit "value", v)])]) = Ok (without_none c).
Proof.
  intros Hm Hc Hf. apply claims_init_intro; [apply p_claims_iff; eauto|]. intros o' [= <-]. eapply p_options_falsy; eauto.
Qed.
Lemma c37_complete now c options : claims_met now c -> c <> [] ->
  (forall name o, In (name, PDict o) options -> option_met c name o) -> JsonWebTokenClaims now (PDict c) (PDict options) = Ok (without_none c).
Proof.
  intros Hm Hc Ho. apply claims_init_intro; [apply p_claims_iff; eauto|]. intros o' [= <-]. apply p_options_complete. exact Ho.
Qed.
