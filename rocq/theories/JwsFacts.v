(** Facts about Jws.v. *)
From Coq Require Import String Ascii List NArith ZArith Bool Lia ZifyBool ZifyNat ZifyN.
From Verif Require Import Base BaseFacts SpecPy PyFacts Utf8 Utf8Facts Base64 SpecCodec Base64Facts Json JsonFacts Url UrlFacts Webtools SpecWeb WebtoolsFacts Crypto RefCrypto Jwk SpecKey JwkFacts Jws SpecJws.
Import ListNotations.
Open Scope N_scope.
Ltac Zify.zify_post_hook ::= Z.div_mod_to_equations.

(** ** Splitting *)
Lemma split3 t a b c : split_on 46 t = [a; b; c] <-> segments t a b c.
Proof.
  split.
  - intros H. pose proof (join_split_on 46 t) as J. pose proof (split_on_no_sep 46 t) as F. rewrite H in *.
    inversion F as [|? ? Fa F1]; subst. inversion F1 as [|? ? Fb F2]; subst. inversion F2 as [|? ? Fc _]; subst.
    unfold segments. auto.
  - intros (-> & Ha & Hb & Hc). rewrite !split_on_app, split_on_none by auto. auto.
Qed.
Lemma split_on_length t : length (split_on 46 t) = S (dots t).
Proof.
  unfold dots. induction t as [|x t IH]; simpl; auto.
  destruct (N.eqb_spec x 46) as [->|Hn].
  - destruct (N.eq_dec 46 46); [|congruence]. simpl. lia.
  - destruct (N.eq_dec x 46); [congruence|]. pose proof (split_on_nonempty 46 t).
    destruct (split_on 46 t) as [|u v]; [congruence|]. simpl in *. lia.
Qed.
Lemma split3_dots t : (exists a b c, split_on 46 t = [a; b; c]) <-> dots t = 2%nat.
Proof.
  pose proof (split_on_length t) as L. split.
  - intros (a & b & c & E). rewrite E in L. simpl in L. lia.
  - intros D. destruct (split_on 46 t) as [|a [|b [|c [|d l]]]]; simpl in L; try lia. eauto.
Qed.

(** ** JSON *)
Lemma pval_dict n s d t : pval n s = Ok (PDict d, t) -> NoDup (keys d) /\ exists r, s = 123 :: r.
Proof.
  destruct n as [|n]; cbn [pval]; [discriminate|]. destruct s as [|c r]; [discriminate|].
  destruct (c =? 34); [intros H; rb H; destruct a; discriminate|].
  destruct (N.eqb_spec c 123) as [->|].
  - destruct (skip_ws r) as [|c' r']; [discriminate|]. destruct (c' =? 125).
    + intros H. inversion H; subst. split; [constructor|eauto].
    + intros H. rb H. destruct a as [kvs t']. inversion H; subst. split; [apply dict_of_NoDup_keys|eauto].
  - destruct (c =? 91).
    + destruct (skip_ws r) as [|c' r']; [discriminate|]. destruct (c' =? 93); [discriminate|].
      intros H. rb H. destruct a; discriminate.
    + repeat (destruct (strip_prefix _ _); [discriminate|]).
      unfold scan_number. destruct (_ : bool * str) as [ng s1]. destruct (scan_int s1) as [[ds s2]|]; [|discriminate].
      destruct (scan_frac s2) as [f s3]. destruct (scan_exp s3) as [x s4]. destruct f, x; discriminate.
Qed.
Lemma skip_ws_In c s r : skip_ws s = c :: r -> In c s.
Proof. induction s as [|x s IH]; simpl; [discriminate|]. destruct (is_ws x); auto. intros H. injection H. auto. Qed.
Lemma loads_dict s d : loads s = Ok (PDict d) -> NoDup (keys d) /\ In 123 s.
Proof.
  unfold loads. destruct s as [|c r]; [discriminate|]. destruct (c =? 65279); [discriminate|].
  intros H. rb H. destruct a as [v t]. destruct (skip_ws t); [|discriminate]. inversion H; subst.
  apply pval_dict in E as (Hn & x & Hx). split; auto. eapply skip_ws_In; eauto.
Qed.
Lemma json_loads_dict b d : bytes_ok b -> json_loads b = Ok (PDict d) ->
  NoDup (keys d) /\ exists s, utf8_decode b = Some s /\ loads s = Ok (PDict d).
Proof.
  intros Hb. unfold json_loads. destruct (utf8_decode b) as [s|] eqn:E.
  - unfold to_string. rewrite E. intros H. split; eauto. apply loads_dict in H. tauto.
  - intros H. exfalso. apply loads_dict in H as [_ H].
    pose proof (to_string_fallback b Hb E) as F. rewrite Forall_forall in F. apply F in H. discriminate.
Qed.
Lemma json_loads_intro b s v : utf8_decode b = Some s -> loads s = Ok v -> json_loads b = Ok v.
Proof. intros E H. unfold json_loads, to_string. rewrite E. auto. Qed.

(** ** Algorithms *)
Lemma alg_of_spec s a : alg_of s = Some a <-> s = alg_name a.
Proof.
  split.
  - unfold alg_of. intros H. apply find_some in H as [_ H]. apply eqs_true in H. auto.
  - intros ->. destruct a as [|h|h|h|h]; try destruct h; reflexivity.
Qed.
Lemma alg_name_inj a b : alg_name a = alg_name b -> a = b.
Proof. intros H. apply alg_of_spec in H. pose proof (proj2 (alg_of_spec (alg_name a) a) eq_refl). congruence. Qed.
Lemma registered_spec s : In s registered <-> exists a, s = alg_name a.
Proof.
  split.
  - intros H. destruct (alg_of s) as [a|] eqn:E; [exists a; apply alg_of_spec; auto|]. exfalso.
    cbv [registered map app fst hs_names rs_names ps_names es_names] in H.
    repeat (destruct H as [<-|H]; [discriminate E|]). destruct H.
  - intros [a ->]. cbv [registered map app fst hs_names rs_names ps_names es_names].
    destruct a as [|h|h|h|h]; try destruct h; cbn [alg_name In]; tauto.
Qed.

(** ** Headers *)
Lemma FullDict_nil d : FullDict d [] = full d.
Proof. reflexivity. Qed.
Lemma without_none_full d : without_none d = full d.
Proof. unfold without_none, full. apply filter_ext. intros [k v]. destruct v; auto. Qed.
Lemma validate_alg_ok d a : validate_alg d = Ok a <-> lookup (lit "alg") d = Some (PStr (alg_name a)).
Proof.
  unfold validate_alg, has, dget. destruct (lookup (lit "alg") d) as [v|]; cbn [negb]; [|split; discriminate].
  destruct v; cbn [hashable]; try (split; discriminate).
  destruct (alg_of s) as [b|] eqn:E; cbn [of_opt].
  - apply alg_of_spec in E. subst. split; intros H.
    + congruence.
    + injection H as H. apply alg_name_inj in H. congruence.
  - split; [discriminate|]. intros H. injection H as H. apply alg_of_spec in H. congruence.
Qed.
Lemma validate_text_ok name d : validate_text name d = Ok tt <->
  forall v, lookup (lit name) d = Some v -> exists s, v = PStr s /\ s <> [].
Proof.
  unfold validate_text, has, dget. destruct (lookup (lit name) d) as [v|].
  - rewrite raise_if_ok. split.
    + intros H w Hw. injection Hw as <-. apply orb_false_iff in H as [H1 H2].
      destruct v; try discriminate. exists s. split; auto. intros ->. discriminate.
    + intros H. destruct (H v eq_refl) as (s & -> & Hs). simpl. destruct s; [congruence|reflexivity].
  - split; auto. intros _ v. discriminate.
Qed.
Lemma validate_crit_ok d : validate_crit d = Ok tt <->
  forall v, lookup (lit "crit") d = Some v ->
     exists l, v = PList l /\ l <> [] /\
       forall x, In x l -> exists s w, x = PStr s /\ s <> [] /\ lookup s d = Some w /\ ~ false_value w.
Proof.
  setoid_rewrite <- true_spec. unfold validate_crit, has. unfold dget at 1. destruct (lookup (lit "crit") d) as [v|].
  - split.
    + intros H w Hw. injection Hw as <-. destruct v as [| | | | |l|]; try discriminate.
      exists l. split; auto. split; [intros ->; discriminate|].
      assert (H' : existsb (fun v => negb (truthy v) || negb (is_str v)) l = false /\
                   existsb (fun v => match v with PStr s => negb (truthy (dget s d)) | _ => false end) l = false).
      { destruct l; [discriminate|]. destruct (existsb _ _); [discriminate|]. destruct (existsb _ _); [discriminate|]. auto. }
      clear H. destruct H' as [H1 H2]. intros x Hx.
      assert (K1 : negb (truthy x) || negb (is_str x) = false).
      { destruct (negb (truthy x) || negb (is_str x)) eqn:E; auto. rewrite <- H1. symmetry. apply existsb_exists. eauto. }
      destruct x; try (destruct (truthy _); discriminate).
      assert (K2 : negb (truthy (dget s d)) = false).
      { destruct (negb (truthy (dget s d))) eqn:E; auto. rewrite <- H2. symmetry. apply existsb_exists. eexists; split; eauto. }
      unfold dget in K2. destruct (lookup s d) as [w|] eqn:Ew; [|discriminate].
      exists s, w. repeat split; auto. intros ->; discriminate. apply negb_false_iff in K2. auto.
    + intros H. destruct (H v eq_refl) as (l & -> & Hne & Hl). destruct l as [|x0 l0]; [congruence|].
      set (l := x0 :: l0) in *.
      replace (existsb _ l) with false; [replace (existsb _ l) with false; auto|].
      * symmetry. apply not_true_is_false. intros K. apply existsb_exists in K as (x & Hx & K).
        destruct (Hl x Hx) as (s & w & -> & Hs & Ew & Hw). unfold dget in K. rewrite Ew, Hw in K. discriminate.
      * symmetry. apply not_true_is_false. intros K. apply existsb_exists in K as (x & Hx & K).
        destruct (Hl x Hx) as (s & w & -> & Hs & Ew & Hw). simpl in K. destruct s; [congruence|discriminate].
  - split; auto. intros _ v. discriminate.
Qed.

Lemma header_iff d h : JsonWebSignatureHeader (PDict d) = Ok h <->
  header_valid d /\ hdict h = full d /\ lookup (lit "alg") d = Some (PStr (alg_name (halg h))).
Proof.
  split.
  - intros H. assert (Hd : d <> []) by (intros ->; discriminate).
    unfold JsonWebSignatureHeader in H. destruct d as [|p d]; [congruence|]. set (D := p :: d) in *.
    rb H. rb H. rb H. rb H. rb H. destruct a0, a1, a2, a3. apply Ok_inj in H. subst h.
    cbn [hdict halg]. rewrite FullDict_nil. apply validate_alg_ok in E.
    pose proof (proj1 (validate_crit_ok D) E0). pose proof (proj1 (validate_text_ok "cty" D) E1).
    pose proof (proj1 (validate_text_ok "kid" D) E2). pose proof (proj1 (validate_text_ok "typ" D) E3).
    split; [|auto]. split; [|split; auto].
    + exists (alg_name a). split; auto. apply registered_spec; eauto.
    + intros name v [<-|[<-|[<-|[]]]] Hv; eauto.
  - intros ((Ha & Ht & Hc) & Hh & Hl). unfold JsonWebSignatureHeader. destruct d as [|p d].
    { destruct Ha as (a & E & _). discriminate. }
    set (D := p :: d) in *. destruct h as [hd ha]. cbn [hdict halg] in *.
    rewrite (proj2 (validate_alg_ok D ha) Hl). cbn [rbind].
    rewrite (proj2 (validate_crit_ok D) Hc). cbn [rbind].
    rewrite !(proj2 (validate_text_ok _ D)); cbn [rbind]; try (intros v Hv; eapply Ht; [|exact Hv]; simpl; auto).
    rewrite FullDict_nil, Hh. auto.
Qed.
Lemma header_nondict v h : JsonWebSignatureHeader v = Ok h -> exists d, v = PDict d /\ d <> [].
Proof. destruct v as [| | | | | |[|p d]]; try discriminate. intros _. eexists; split; eauto. discriminate. Qed.
Lemma header_err v e : JsonWebSignatureHeader v = Err e -> e = InvalidJWSHeader \/ e = UnsupportedAlgorithm \/ e = TypeError.
Proof.
  unfold JsonWebSignatureHeader.
  assert (V : forall d e, validate_alg d = Err e -> e = InvalidJWSHeader \/ e = UnsupportedAlgorithm \/ e = TypeError).
  { intros d e'. unfold validate_alg. destruct (has _ _); cbn [negb]; [|intros H; left; congruence].
    destruct (dget _ _); cbn [hashable]; try (intros H; injection H; auto).
    destruct (alg_of s); cbn [of_opt]; [discriminate|]. intros H; injection H; auto. }
  assert (X : forall d e, validate_crit d = Err e -> e = InvalidJWSHeader).
  { intros d e'. unfold validate_crit. destruct (has _ _); [|discriminate].
    destruct (dget _ _) as [| | | | |l|]; try (intros H; injection H; auto). destruct l; [intros H; injection H; auto|].
    destruct (existsb _ _); [intros H; injection H; auto|]. destruct (existsb _ _); [intros H; injection H; auto|discriminate]. }
  assert (T : forall n d e, validate_text n d = Err e -> e = InvalidJWSHeader).
  { intros n d e'. unfold validate_text, raise_if. destruct (has _ _); [|discriminate]. destruct (_ || _); [|discriminate].
    intros H; injection H; auto. }
  destruct v as [| | | | | |[|p d]]; try (intros H; injection H; auto).
  set (D := p :: d). intros H.
  apply rbind_err in H as [H|(a & _ & H)]; [eauto|].
  apply rbind_err in H as [H|(? & _ & H)]; [left; eauto|].
  apply rbind_err in H as [H|(? & _ & H)]; [left; eauto|].
  apply rbind_err in H as [H|(? & _ & H)]; [left; eauto|].
  apply rbind_err in H as [H|(? & _ & H)]; [left; eauto|]. discriminate.
Qed.
(** Validating an already validated header gives it back. *)
Lemma header_again d h : NoDup (keys d) -> JsonWebSignatureHeader (PDict d) = Ok h ->
  JsonWebSignatureHeader (PDict (hdict h)) = Ok h.
Proof.
  intros Hn H. apply header_iff in H as ((Ha & Ht & Hc) & Hh & Hl). apply header_iff. rewrite Hh.
  assert (L : forall a v, lookup a (full d) = Some v -> lookup a d = Some v).
  { intros a v. rewrite lookup_full by auto. destruct (lookup a d) as [[]|]; congruence. }
  assert (L' : forall a v, lookup a d = Some v -> v <> PNone -> lookup a (full d) = Some v).
  { intros a v E Hv. rewrite lookup_full by auto. unfold str in *. rewrite E. destruct v; congruence. }
  split; [|split].
  - split; [|split].
    + destruct Ha as (a & E & Hr). exists a. split; auto. apply L'; auto. discriminate.
    + intros name v Hin Hv. eauto.
    + intros v Hv. destruct (Hc v (L _ _ Hv)) as (l & -> & Hne & Hx). exists l. repeat split; auto.
      intros x Hi. destruct (Hx x Hi) as (s & w & -> & Hs & Ew & Hw). exists s, w. repeat split; auto.
      apply L'; auto. intros ->; apply Hw; constructor.
  - symmetry. apply full_full.
  - apply L'; auto. discriminate.
Qed.
Lemma header_alg_get d h : NoDup (keys d) -> JsonWebSignatureHeader (PDict d) = Ok h ->
  dget (lit "alg") (hdict h) = PStr (alg_name (halg h)).
Proof.
  intros Hn H. apply header_iff in H as (_ & -> & Hl). rewrite dget_full by auto. unfold dget. rewrite Hl. auto.
Qed.

(** ** Keys *)
Lemma py_in_ops x : py_in x [PStr (lit "sign"); PStr (lit "verify")] = true <-> x = PStr (lit "sign") \/ x = PStr (lit "verify").
Proof. unfold py_in. simpl. rewrite orb_false_r, orb_true_iff, !py_eq_str. tauto. Qed.
Lemma opt_check b c : raise_if (b && negb c) InvalidKey = Ok tt <-> (b = true -> c = true).
Proof. rewrite raise_if_ok. destruct b, c; simpl; split; auto; try congruence. intros H; discriminate (H eq_refl). Qed.
Lemma ops_check l : raise_if (existsb (fun op => negb (py_in op [PStr (lit "sign"); PStr (lit "verify")])) l) InvalidKey = Ok tt <->
  forall x, In x l -> x = PStr (lit "sign") \/ x = PStr (lit "verify").
Proof.
  rewrite raise_if_ok. split.
  - intros H x Hx. apply py_in_ops. destruct (py_in x _) eqn:E; auto. rewrite <- H. apply existsb_exists.
    exists x. rewrite E. auto.
  - intros H. apply not_true_is_false. intros K. apply existsb_exists in K as (x & Hx & K). apply H, py_in_ops in Hx.
    rewrite Hx in K. discriminate.
Qed.
Lemma validate_key_iff k d h : NoDup (keys d) -> JsonWebSignatureHeader (PDict d) = Ok h ->
  (validate_key (Some k) h = Ok tt <-> key_permits k d).
Proof.
  intros Hn Hh. pose proof (header_alg_get _ _ Hn Hh) as Ha. apply header_iff in Hh as ((_ & Ht & _) & Hd & Hl).
  unfold validate_key, key_permits. rewrite <- !true_spec. rewrite Ha.
  assert (Ha' : dget (lit "alg") d = PStr (alg_name (halg h))) by (unfold dget; rewrite Hl; auto). rewrite Ha'.
  rewrite Hd, dget_full by auto.
  assert (Hk : truthy (dget (lit "kid") d) = true -> exists s, dget (lit "kid") d = PStr s).
  { unfold dget. destruct (lookup (lit "kid") d) as [v|] eqn:E; [|discriminate]. intros _.
    destruct (Ht (lit "kid") v) as (s & -> & _); simpl; eauto. }
  rewrite rbind_ok. split.
  - intros (u1 & E1 & H). destruct u1. rewrite opt_check in E1.
    apply rbind_ok in H as (u2 & E2 & H). destruct u2. rewrite opt_check in E2.
    apply rbind_ok in H as (u3 & E3 & H). destruct u3. rewrite opt_check in E3.
    split; [intros T; apply E1 in T; apply py_eq_str in T; auto|].
    split; [|split; [intros T; apply E3 in T; apply py_eq_str in T; auto|]].
    + intros T. destruct (Hk T) as (s & Es). specialize (E2 T). rewrite Es in *. apply py_eq_str in E2. auto.
    + intros T. rewrite T in H. apply rbind_ok in H as (ops & Ei & H). pose proof (proj1 (ops_check ops) H) as K.
      destruct (dget (lit "key_ops") (jdata k)) as [| | | |s|l|dd] eqn:Ed; try discriminate.
      * exfalso. simpl in Ei. apply Ok_inj in Ei. subst ops. destruct s as [|c s]; [discriminate|].
        destruct (K (PStr [c]) (or_introl eq_refl)); discriminate.
      * left. simpl in Ei. apply Ok_inj in Ei. subst. eauto.
      * right. simpl in Ei. apply Ok_inj in Ei. subst. exists dd. split; auto. intros x Hx.
        destruct (K (PStr x)) as [E|E].
        { apply in_map_iff in Hx as (kv & <- & Hx). apply in_map_iff. eauto. }
        { left. congruence. } { right. congruence. }
  - intros (K1 & K2 & K3 & K4). exists tt. split; [apply opt_check; intros T; apply py_eq_str; auto|].
    apply rbind_ok. exists tt. split.
    { apply opt_check. intros T. destruct (Hk T) as (s & Es). specialize (K2 T). rewrite Es in *. apply py_eq_str. auto. }
    apply rbind_ok. exists tt. split; [apply opt_check; intros T; apply py_eq_str; auto|].
    destruct (truthy (dget (lit "key_ops") (jdata k))) eqn:T; auto.
    destruct (K4 eq_refl) as [(l & El & Hx)|(dd & Ed & Hx)].
    + rewrite El. cbn [iter_val rbind]. apply ops_check; auto.
    + rewrite Ed. cbn [iter_val rbind]. apply ops_check. intros x Hi. apply in_map_iff in Hi as (kv & <- & Hi).
      destruct (Hx (fst kv)) as [->| ->]; auto. apply in_map_iff; eauto.
Qed.
Lemma validate_key_err key h e : validate_key key h = Err e -> e = InvalidKey \/ e = TypeError.
Proof.
  unfold validate_key, raise_if. destruct key as [k|]; [|intros H; left; congruence].
  destruct (_ && _); cbn [rbind]; [intros H; left; congruence|].
  destruct (_ && _); cbn [rbind]; [intros H; left; congruence|].
  destruct (_ && _); cbn [rbind]; [intros H; left; congruence|].
  destruct (truthy _); [|discriminate]. destruct (iter_val _) eqn:Ei; cbn [rbind].
  - destruct (existsb _ _); [intros H; left; congruence|discriminate].
  - destruct (dget _ _); simpl in Ei; try discriminate; intros H; right; congruence.
Qed.

(** What a constructed key says of itself is what it is. *)
Lemma constructible_kty C k : constructible C k -> dget (lit "kty") (jdata k) = PStr (mat_kty (jmat k)).
Proof.
  intros (d & Hn & H). apply JsonWebKey_ok in H as (d' & kty & E & Hne & Hl & Hin & Hm & Hd & Hk & _).
  injection E as <-. rewrite Hd, dget_full by auto. unfold dget. rewrite Hl. congruence.
Qed.
Lemma constructible_crv C k c x y o : constructible C k -> jmat k = KEC c x y o -> dget (lit "crv") (jdata k) = PStr (curve_name c).
Proof.
  intros (d & Hn & H) Em. apply JsonWebKey_ok in H as (d' & kty & E & Hne & Hl & Hin & Hm & Hd & Hk & _).
  injection E as <-. rewrite Hd, dget_full by auto. rewrite Em in *. simpl in Hk. subst kty.
  unfold make_mat in Hm. destruct (has (lit "self") d); [discriminate|].
  change (eqs (lit "EC") (lit "oct")) with false in Hm. change (eqs (lit "EC") (lit "RSA")) with false in Hm. cbv iota in Hm.
  unfold kwarg in Hm. unfold dget. destruct (lookup (lit "crv") d) as [v|]; [|discriminate]. cbn [of_opt rbind] in Hm.
  do 2 rb Hm. apply ECKey_ok in Hm as (c' & x' & y' & o' & E' & Ev & _). congruence.
Qed.
Lemma constructible_wf C k : constructible C k -> wf_mat C (jmat k).
Proof. intros (d & Hn & H). apply JsonWebKey_ok in H as (d' & kty & _ & _ & _ & _ & _ & _ & _ & W). auto. Qed.

(** ** DER *)
Lemma byte_len_le n k : n < 256 ^ N.of_nat k -> (byte_len n <= k)%nat.
Proof.
  intros H. unfold byte_len. destruct (N.eq_dec n 0) as [->|Hn]; [simpl; lia|].
  pose proof (N.size_gt n) as G. pose proof (N.size_le n) as L.
  assert (N.size n <= 8 * N.of_nat k).
  { rewrite N.size_log2 by auto. apply N.le_succ_l. apply N.log2_lt_pow2; [lia|].
    change 256 with (2 ^ 8) in H. rewrite <- N.pow_mul_r in H. auto. }
  lia.
Qed.
Lemma be_value_lead0 b : be_value (0 :: b) = be_value b.
Proof. reflexivity. Qed.
Definition int_body (n : N) : bytes :=
  match be_bytes (byte_len n) n with [] => [0] | x :: r => if 128 <=? x then 0 :: x :: r else x :: r end.
Lemma der_int_body n : der_int n = 2 :: der_len (length (int_body n)) ++ int_body n.
Proof. unfold der_int, int_body. destruct (be_bytes (byte_len n) n) as [|x r]; auto. Qed.
Lemma be_bytes_length k n : length (be_bytes k n) = k.
Proof. revert n; induction k as [|k IH]; simpl; intros n; auto. rewrite app_length, IH. simpl. lia. Qed.
Lemma int_body_length n k : (byte_len n <= k)%nat -> (0 < length (int_body n) <= S k)%nat.
Proof.
  intros H. unfold int_body. pose proof (be_bytes_length (byte_len n) n) as L.
  destruct (be_bytes (byte_len n) n) as [|x r]; [simpl; lia|]. destruct (128 <=? x); simpl in *; lia.
Qed.
Lemma int_body_value n : be_value (int_body n) = n.
Proof.
  pose proof (be_value_bytes (byte_len n) n (byte_len_bound n)) as V. unfold int_body.
  destruct (be_bytes (byte_len n) n) as [|x r]; auto. destruct (128 <=? x); auto.
Qed.
Lemma int_body_ok n : bytes_ok (int_body n).
Proof.
  pose proof (be_bytes_ok (byte_len n) n) as V. unfold int_body.
  destruct (be_bytes (byte_len n) n) as [|x r]; [repeat constructor|]. destruct (128 <=? x); auto.
  constructor; auto. lia.
Qed.
Lemma der_take_len tag b r : (length b < 256)%nat -> der_take tag (tag :: der_len (length b) ++ b ++ r) = Some (b, r).
Proof.
  intros H. unfold der_len. destruct (Nat.ltb_spec (length b) 128) as [Hl|Hl].
  - cbn [app der_take]. rewrite N.eqb_refl. cbn [negb].
    replace (N.of_nat (length b) <? 128) with true by lia. rewrite Nat2N.id, firstn_app, skipn_app.
    rewrite Nat.sub_diag, firstn_all, skipn_all. simpl. rewrite app_nil_r. auto.
  - cbn [app der_take]. rewrite N.eqb_refl. cbn [negb]. change (129 <? 128) with false. cbv iota.
    change (129 =? 129) with true. cbv iota. rewrite Nat2N.id, firstn_app, skipn_app.
    rewrite Nat.sub_diag, firstn_all, skipn_all. simpl. rewrite app_nil_r. auto.
Qed.
Lemma der_len_length n : (length (der_len n) <= 2)%nat.
Proof. unfold der_len. destruct (Nat.ltb n 128); simpl; lia. Qed.
Lemma der_len_ok n : (n < 256)%nat -> bytes_ok (der_len n).
Proof. intros H. unfold der_len. destruct (Nat.ltb_spec n 128); repeat constructor; lia. Qed.
Lemma der_rt r s : r < 256 ^ 66 -> s < 256 ^ 66 -> der_parse (der_sig (r, s)) = Some (r, s) /\ bytes_ok (der_sig (r, s)).
Proof.
  intros Hr Hs. change 66 with (N.of_nat 66) in Hr, Hs.
  apply byte_len_le in Hr. apply byte_len_le in Hs. apply int_body_length in Hr. apply int_body_length in Hs.
  pose proof (der_len_length (length (int_body r))). pose proof (der_len_length (length (int_body s))).
  assert (L : (length (der_int r ++ der_int s) < 256)%nat).
  { rewrite !der_int_body, !app_length. cbn [length]. rewrite !app_length. lia. }
  split.
  - assert (T1 : der_take 48 (der_sig (r, s)) = Some (der_int r ++ der_int s, [])).
    { unfold der_sig. cbn [fst snd]. rewrite <- (app_nil_r (der_int r ++ der_int s)) at 2. apply der_take_len; auto. }
    assert (T2 : der_take 2 (der_int r ++ der_int s) = Some (int_body r, der_int s)).
    { rewrite (der_int_body r), <- app_comm_cons, <- app_assoc. apply der_take_len. lia. }
    assert (T3 : der_take 2 (der_int s) = Some (int_body s, [])).
    { rewrite (der_int_body s). rewrite <- (app_nil_r (int_body s)) at 2. apply der_take_len. lia. }
    unfold der_parse. rewrite T1, T2, T3, !int_body_value, eqs_refl. auto.
  - unfold der_sig. cbn [fst snd]. constructor; [lia|]. apply Forall_app. split; [apply der_len_ok; auto|].
    apply Forall_app. split; rewrite der_int_body; (constructor; [lia|]); apply Forall_app; split;
      try apply int_body_ok; apply der_len_ok; lia.
Qed.
Lemma curve_order_bound c : curve_order c < 256 ^ 66.
Proof. destruct c; vm_compute; reflexivity. Qed.
Lemma der_parse_inv s rs : der_parse s = Some rs -> s = der_sig rs.
Proof.
  unfold der_parse. destruct (der_take 48 s) as [[c [|? ?]]|]; try discriminate.
  destruct (der_take 2 c) as [[r c']|]; try discriminate. destruct (der_take 2 c') as [[t [|? ?]]|]; try discriminate.
  match goal with |- context [if ?b then _ else _] => destruct b eqn:E end; try discriminate.
  intros H. injection H as <-. apply eqs_true in E. auto.
Qed.

(** ** Verification *)
Lemma hs_in a h : In (alg_name a, h) hs_names <-> a = HS h.
Proof.
  split.
  - destruct a as [|x|x|x|x]; try destruct x; unfold hs_names; cbn [In alg_name];
      intros [H|[H|[H|[]]]]; pose proof (f_equal fst H) as H1; pose proof (f_equal snd H) as H2;
      cbn [fst snd] in H1, H2; try discriminate H1; subst; auto.
  - intros ->. destruct h; unfold hs_names; cbn [In alg_name]; auto.
Qed.
Lemma rs_in a h : In (alg_name a, h) rs_names <-> a = RS h.
Proof.
  split.
  - destruct a as [|x|x|x|x]; try destruct x; unfold rs_names; cbn [In alg_name];
      intros [H|[H|[H|[]]]]; pose proof (f_equal fst H) as H1; pose proof (f_equal snd H) as H2;
      cbn [fst snd] in H1, H2; try discriminate H1; subst; auto.
  - intros ->. destruct h; unfold rs_names; cbn [In alg_name]; auto.
Qed.
Lemma ps_in a h : In (alg_name a, h) ps_names <-> a = PS h.
Proof.
  split.
  - destruct a as [|x|x|x|x]; try destruct x; unfold ps_names; cbn [In alg_name];
      intros [H|[H|[H|[]]]]; pose proof (f_equal fst H) as H1; pose proof (f_equal snd H) as H2;
      cbn [fst snd] in H1, H2; try discriminate H1; subst; auto.
  - intros ->. destruct h; unfold ps_names; cbn [In alg_name]; auto.
Qed.
Definition es_curve (h : hash) : curve := match h with SHA256 => P256 | SHA384 => P384 | SHA512 => P521 end.
Lemma es_in a c h : In (alg_name a, (c, h)) es_names <-> a = ES h /\ c = es_curve h.
Proof.
  split.
  - destruct a as [|x|x|x|x]; try destruct x; unfold es_names; cbn [In alg_name];
      intros [H|[H|[H|[]]]]; pose proof (f_equal fst H) as H1; pose proof (f_equal snd H) as H2;
      cbn [fst snd] in H1, H2; try discriminate H1; injection H2 as <- <-; auto.
  - intros [-> ->]. destruct h; unfold es_names; cbn [In alg_name]; auto.
Qed.

Definition alg_fits (a : alg) (m : kmat) : Prop :=
  match a, m with
  | HS _, KOct _ | RS _, KRSA _ _ _ | PS _, KRSA _ _ _ => True
  | ES h, KEC c _ _ _ => c = es_curve h
  | _, _ => False
  end.
Lemma alg_validate_key_ok C a k k' : constructible C k -> a <> Anone ->
  (alg_validate_key a (Some k) = Ok k' <->
   k' = k /\ (truthy (dget (lit "alg") (jdata k)) = true -> dget (lit "alg") (jdata k) = PStr (alg_name a)) /\
   alg_fits a (jmat k)).
Proof.
  intros Hk Ha. pose proof (constructible_kty _ _ Hk) as Ky. unfold alg_validate_key. rewrite Ky.
  assert (A : (truthy (dget (lit "alg") (jdata k)) && negb (py_eq (dget (lit "alg") (jdata k)) (PStr (alg_name a))) = false) <->
              (truthy (dget (lit "alg") (jdata k)) = true -> dget (lit "alg") (jdata k) = PStr (alg_name a))).
  { rewrite <- py_eq_str. destruct (truthy _), (py_eq _ _); simpl; split; auto; try congruence. intros H; discriminate (H eq_refl). }
  destruct (truthy (dget (lit "alg") (jdata k)) && _) eqn:E1.
  { split; [discriminate|]. intros (_ & H & _). apply A in H. congruence. }
  assert (B : py_eq (PStr (mat_kty (jmat k))) (PStr (alg_kty a)) = true <->
     match a, jmat k with HS _, KOct _ | RS _, KRSA _ _ _ | PS _, KRSA _ _ _ | ES _, KEC _ _ _ _ => True | _, _ => False end).
  { destruct a; try congruence; destruct (jmat k); simpl; split; auto; try discriminate; try tauto. }
  destruct (py_eq (PStr (mat_kty (jmat k))) _) eqn:E2; cbn [negb].
  2:{ split; [discriminate|]. intros (_ & _ & F). exfalso. destruct a; try congruence; destruct (jmat k); simpl in F; try tauto;
       apply diff_false_true, B; auto. }
  pose proof (proj1 B eq_refl) as B'. clear B E2.
  destruct a as [|h|h|h|h]; try congruence; cbn [alg_curve].
  - destruct (jmat k); try tauto. simpl. rewrite A in E1 || idtac. pose proof (proj1 A eq_refl). split; [intros H'; apply Ok_inj in H'|intros (-> & _)]; auto.
  - destruct (jmat k); try tauto. simpl. pose proof (proj1 A eq_refl). split; [intros H'; apply Ok_inj in H'|intros (-> & _)]; auto.
  - destruct (jmat k) as [|?|c x y o] eqn:Em; try tauto. pose proof (constructible_crv _ _ _ _ _ _ Hk Em) as Cv. rewrite Cv.
    pose proof (proj1 A eq_refl). simpl.
    destruct h, c; cbn; split; first [intros H'; discriminate H' | intros H'; apply Ok_inj in H'; solve [auto]
      | intros (_ & _ & K); discriminate K | intros (-> & _); reflexivity].
  - destruct (jmat k); try tauto. simpl. pose proof (proj1 A eq_refl). split; [intros H'; apply Ok_inj in H'|intros (-> & _)]; auto.
Qed.
Lemma mat_verify_iff C a m sig data : a <> Anone -> alg_fits a m ->
  (mat_verify C m sig data (alg_hash a) (alg_padding a) = Ok tt <-> accepts C m (alg_name a) sig data).
Proof.
  intros Ha F. destruct a as [|h|h|h|h]; try congruence; destruct m as [s|n e o|c x y o]; try (exfalso; exact F);
    cbn [mat_verify alg_hash alg_padding padding_fits negb].
  - split.
    + destruct (eqs _ sig) eqn:E; [|discriminate]. apply eqs_true in E. subst. intros _. constructor. apply hs_in. auto.
    + intros H. inversion H as [? ? h' ? Hin| | |]; subst. apply hs_in in Hin. injection Hin as ->. rewrite eqs_refl. auto.
  - split.
    + destruct (c_rsa_verify _ _ _ _ _ _ _) eqn:E; [|discriminate]. intros _. eapply acc_rs; eauto. apply rs_in. auto.
    + intros H. inversion H as [|? ? ? ? h' ? ? Hin Hv|? ? ? ? h' ? ? Hin Hl Hv|]; subst.
      * apply rs_in in Hin. injection Hin as ->. rewrite Hv. auto.
      * apply ps_in in Hin. discriminate.
  - simpl in F. subst c. split.
    + destruct (der_parse sig) as [rs|] eqn:E; [|discriminate]. apply der_parse_inv in E. subst.
      destruct (ec_sig_range _ rs) eqn:R; [|discriminate]. destruct (c_ec_verify _ _ _ _ _ _ _) eqn:V; [|discriminate].
      intros _. destruct rs as [r s]. unfold ec_sig_range in R. cbn [fst snd] in R. eapply acc_es; eauto; try lia. apply es_in; auto.
    + intros H. inversion H as [| | |? ? ? ? ? h' r s ? Hin Hr Hs Hv]; subst.
      apply es_in in Hin as [Hin _]. injection Hin as <-.
      pose proof (curve_order_bound (es_curve h)) as B.
      destruct (der_rt r s) as [-> _]; [lia|lia|].
      assert (R : ec_sig_range (es_curve h) (r, s) = true) by (unfold ec_sig_range; cbn [fst snd]; lia).
      rewrite R, Hv. auto.
  - split.
    + destruct (Nat.leb _ _) eqn:L; [|discriminate]. cbn [negb]. apply Nat.leb_le in L.
      destruct (c_rsa_verify _ _ _ _ _ _ _) eqn:E; [|discriminate]. intros _. eapply acc_ps; eauto. apply ps_in. auto.
    + intros H. inversion H as [|? ? ? ? h' ? ? Hin Hv|? ? ? ? h' ? ? Hin Hl Hv|]; subst.
      * apply rs_in in Hin. discriminate.
      * apply ps_in in Hin. injection Hin as ->. apply Nat.leb_le in Hl. rewrite Hl, Hv. auto.
Qed.
Lemma accepts_fits C m a sig data : accepts C m (alg_name a) sig data -> a <> Anone /\ alg_fits a m.
Proof.
  intros H. inversion H as [? ? h' ? Hin|? ? ? ? h' ? ? Hin Hv|? ? ? ? h' ? ? Hin Hl Hv|? ? ? ? ? h' r s ? Hin Hr Hs Hv]; subst.
  - apply hs_in in Hin. subst. split; [discriminate|exact I].
  - apply rs_in in Hin. subst. split; [discriminate|exact I].
  - apply ps_in in Hin. subst. split; [discriminate|exact I].
  - apply es_in in Hin as [-> ->]. split; [discriminate|reflexivity].
Qed.
Lemma alg_verify_iff C a ss data k : constructible C k -> a <> Anone ->
  (truthy (dget (lit "alg") (jdata k)) = true -> dget (lit "alg") (jdata k) = PStr (alg_name a)) ->
  (alg_verify C a ss data (Some k) = Ok tt <->
   exists sig, base64url_decode ss = Ok sig /\ accepts C (jmat k) (alg_name a) sig data).
Proof.
  intros Hk Ha Hal.
  assert (E : alg_verify C a ss data (Some k) =
     let! k := alg_validate_key a (Some k) in
      match base64url_decode ss with
      | Err BinasciiError => Err InvalidSignature
      | Err e => Err e
      | Ok raw => mat_verify C (jmat k) raw data (alg_hash a) (alg_padding a)
      end) by (destruct a; [congruence|auto..]). rewrite E. clear E.
  split.
  - intros H. rb H. apply (alg_validate_key_ok C) in E as (-> & _ & F); auto.
    destruct (base64url_decode ss) as [sig|e]; [|destruct e; discriminate].
    exists sig. split; auto. apply (mat_verify_iff C a); auto.
  - intros (sig & Es & Hacc). pose proof (accepts_fits _ _ _ _ _ Hacc) as [_ F].
    rewrite (proj2 (alg_validate_key_ok C a k k Hk Ha)) by auto. cbn [rbind]. rewrite Es. apply (mat_verify_iff C a); auto.
Qed.

Lemma deserialize_iff C token k algv validate j : constructible C k ->
  (deserialize C token (Some k) algv validate = Ok j <->
   exists hs ps ss hb s d a,
     segments token hs ps ss /\
     base64url_decode hs = Ok hb /\ utf8_decode hb = Some s /\ loads s = Ok (PDict d) /\
     header_valid d /\ lookup (lit "alg") d = Some (PStr (alg_name a)) /\
     hdict (jheader j) = without_none d /\ halg (jheader j) = a /\
     base64url_decode ps = Ok (jpayload j) /\
     (truthy algv = true -> algv = PStr (alg_name a)) /\
     (validate = true -> key_permits k d /\
        (a = Anone \/ exists sig, base64url_decode ss = Ok sig /\ accepts C (jmat k) (alg_name a) sig (hs ++ 46 :: ps)))).
Proof.
  intros Hk. split.
  - intros H. unfold deserialize in H. destruct (split_on 46 token) as [|hs [|ps [|ss [|? ?]]]] eqn:Es; try discriminate.
    apply split3 in Es. rb H. rb H. rb H. rename a into hb. rename a1 into h. rb H. rb H. rb H. apply Ok_inj in H. subst j.
    pose proof (header_nondict _ _ E1) as (d & -> & Hd). destruct a as [].
    assert (Hb : bytes_ok hb) by (eapply base64url_decode_bytes_ok; eauto).
    apply json_loads_dict in E0 as (Hn & s & Eu & El); auto.
    pose proof (header_alg_get _ _ Hn E1) as Ha.
    pose proof (validate_key_iff k d h Hn E1) as Vk.
    pose proof E1 as Hh. apply header_iff in Hh as (Hv & Hf & Hl).
    exists hs, ps, ss, hb, s, d, (halg h). cbn [jheader jpayload]. rewrite without_none_full.
    repeat (split; [solve [auto]|]). split.
    + apply raise_if_ok in E2. intros T. rewrite T, Ha in E2. simpl in E2. apply negb_false_iff in E2. apply py_eq_str_l in E2. auto.
    + intros ->. apply rbind_ok in E3 as ([] & Ek & Ev). apply Vk in Ek. split; auto.
      match type of Ev with _ = Ok ?u => destruct u end.
      destruct (halg h) eqn:Eh; auto; right; rewrite <- Eh in *;
        (eapply alg_verify_iff; [eauto|congruence| |eauto]);
        destruct Ek as [K _]; intros T; apply true_spec in T; specialize (K T); unfold dget in K at 2; rewrite Hl in K; auto.
  - intros (hs & ps & ss & hb & s & d & a & Hseg & Eh & Eu & El & Hv & Hl & Hd & Hha & Ep & Hal & Hval).
    unfold deserialize. apply split3 in Hseg. rewrite Hseg, Eh. cbn [rbind].
    rewrite (json_loads_intro hb s (PDict d)) by auto. cbn [rbind].
    pose proof (loads_dict _ _ El) as [Hn _].
    assert (Hh : JsonWebSignatureHeader (PDict d) = Ok (jheader j)).
    { apply header_iff. rewrite <- without_none_full, Hha. auto. }
    rewrite Hh. cbn [rbind]. rewrite (header_alg_get _ _ Hn Hh), Hha.
    assert (Ra : raise_if (truthy algv && negb (py_eq (PStr (alg_name a)) algv)) InvalidJWSSerialization = Ok tt).
    { apply raise_if_ok. destruct (truthy algv) eqn:T; auto. rewrite (Hal eq_refl). simpl. rewrite eqs_refl. auto. }
    rewrite Ra. cbn [rbind].
    assert (Rv : (if validate then let! _ := validate_key (Some k) (jheader j) in alg_verify C a ss (hs ++ 46 :: ps) (Some k) else Ok tt) = Ok tt).
    { destruct validate; auto. destruct (Hval eq_refl) as [Hp Hs].
      rewrite (proj2 (validate_key_iff k d _ Hn Hh) Hp). cbn [rbind].
      destruct Hs as [->|Hs]; auto. destruct a eqn:Ea; auto; rewrite <- Ea in *;
        (eapply alg_verify_iff; [eauto|congruence| |eauto]);
        destruct Hp as [K _]; intros T; apply true_spec in T; specialize (K T); unfold dget in K at 2; rewrite Hl in K; auto. }
    rewrite Rv. cbn [rbind]. rewrite Ep. cbn [rbind]. destruct j; auto.
Qed.

(** ** Signing *)
Lemma accepts_public C m m' name sig data : m' = m \/ m' = public_part m -> accepts C m name sig data -> accepts C m' name sig data.
Proof.
  intros [->| ->] H; auto. destruct H; cbn [public_part];
    [eapply acc_hs|eapply acc_rs|eapply acc_ps|eapply acc_es]; eauto.
Qed.
Lemma mat_sign_accepts C rand a m data sig : a <> Anone -> alg_fits a m -> backend_correct C m ->
  mat_sign C rand m data (alg_hash a) (alg_padding a) = Ok sig -> bytes_ok sig /\ accepts C m (alg_name a) sig data.
Proof.
  intros Ha F B H. destruct a as [|h|h|h|h]; try congruence; destruct m as [s|n e o|c x y o]; try (exfalso; exact F);
    cbn [mat_sign alg_hash alg_padding padding_fits] in H.
  - apply Ok_inj in H. subst. split; [apply B|]. constructor. apply hs_in; auto.
  - destruct o as [k|]; [|discriminate]. destruct (B _ _ _ _ _ H) as [B1 B2]. split; auto. eapply acc_rs; eauto. apply rs_in; auto.
  - destruct o as [k|]; [|discriminate]. apply Ok_inj in H. destruct (B rand h data) as (r & s & E & Hr & Hs & V).
    rewrite E in H. subst sig. pose proof (curve_order_bound c). simpl in F. subst c. split; [apply der_rt; lia|].
    eapply acc_es; eauto. apply es_in; auto.
  - destruct o as [k|]; [|discriminate]. destruct (Nat.leb _ _) eqn:L; [|discriminate]. apply Nat.leb_le in L.
    destruct (B _ _ _ _ _ H) as [B1 B2]. split; auto. eapply acc_ps; eauto. apply ps_in; auto.
Qed.
Lemma json_wf_full d : json_wf (PDict d) = true -> json_wf (PDict (full d)) = true.
Proof.
  cbn [json_wf]. rewrite !andb_true_iff, !nodupb_spec. intros [H1 H2]. split.
  - apply keys_filter_NoDup. auto.
  - rewrite forallb_forall in *. intros x Hx. apply filter_In in Hx. apply H2. tauto.
Qed.
Lemma json_wf_NoDup d : json_wf (PDict d) = true -> NoDup (keys d).
Proof. cbn [json_wf]. rewrite andb_true_iff, nodupb_spec. tauto. Qed.
Lemma b64_no_dot b : bytes_ok b -> ~ In 46 (base64url_encode b).
Proof. intros H K. pose proof (base64url_encode_url b H) as F. rewrite Forall_forall in F. apply F in K. discriminate. Qed.

Lemma serialize_ok C rand d h payload k token : constructible C k -> NoDup (keys d) ->
  JsonWebSignatureHeader (PDict d) = Ok h ->
  serialize C rand {| jheader := h; jpayload := payload |} (Some k) = Ok token ->
  key_permits k d /\ exists hb, utf8_encode (dumps (PDict (full d))) = Ok hb /\
    let m := base64url_encode hb ++ 46 :: base64url_encode payload in
    (halg h = Anone /\ token = m ++ [46]) \/
    (halg h <> Anone /\ alg_fits (halg h) (jmat k) /\ exists sig, mat_sign C rand (jmat k) m (alg_hash (halg h)) (alg_padding (halg h)) = Ok sig /\
       token = m ++ 46 :: base64url_encode sig).
Proof.
  intros Hk Hn Hh H. unfold serialize in H. cbn [jheader jpayload] in H.
  apply rbind_ok in H as ([] & Ev & H). apply (validate_key_iff k d h Hn Hh) in Ev. split; auto.
  assert (Ed : hdict h = full d) by (apply header_iff in Hh; tauto). rewrite Ed in H.
  apply rbind_ok in H as (hb & Eb & H). exists hb. split; auto. cbv zeta in H |- *.
  set (m := base64url_encode hb ++ 46 :: base64url_encode payload) in *.
  apply rbind_ok in H as (sg & Es & H). apply Ok_inj in H. subst token.
  destruct (halg h) as [|x|x|x|x] eqn:Ea.
  - left. split; auto. apply Ok_inj in Es. subst. auto.
  - right. split; [discriminate|]. apply rbind_ok in Es as (k' & Ek & Es). apply (alg_validate_key_ok C) in Ek as (-> & _ & F); auto; [|discriminate].
    split; auto. apply rbind_ok in Es as (sig & Es & H). exists sig. split; auto. apply Ok_inj in H. subst. auto.
  - right. split; [discriminate|]. apply rbind_ok in Es as (k' & Ek & Es). apply (alg_validate_key_ok C) in Ek as (-> & _ & F); auto; [|discriminate].
    split; auto. apply rbind_ok in Es as (sig & Es & H). exists sig. split; auto. apply Ok_inj in H. subst. auto.
  - right. split; [discriminate|]. apply rbind_ok in Es as (k' & Ek & Es). apply (alg_validate_key_ok C) in Ek as (-> & _ & F); auto; [|discriminate].
    split; auto. apply rbind_ok in Es as (sig & Es & H). exists sig. split; auto. apply Ok_inj in H. subst. auto.
  - right. split; [discriminate|]. apply rbind_ok in Es as (k' & Ek & Es). apply (alg_validate_key_ok C) in Ek as (-> & _ & F); auto; [|discriminate].
    split; auto. apply rbind_ok in Es as (sig & Es & H). exists sig. split; auto. apply Ok_inj in H. subst. auto.
Qed.
Lemma key_permits_verifying k k' d : verifying_key k k' -> key_permits k d -> key_permits k' d.
Proof.
  intros [_ H] P. unfold key_permits in *.
  rewrite !(H (lit "alg")), !(H (lit "kid")), !(H (lit "use")), !(H (lit "key_ops")) by (simpl; tauto). auto.
Qed.
Lemma p_jws_roundtrip C rand d h payload k k' token algv :
  json_wf (PDict d) = true -> bytes_ok payload -> constructible C k -> constructible C k' -> verifying_key k k' ->
  backend_correct C (jmat k) ->
  JsonWebSignatureHeader (PDict d) = Ok h ->
  serialize C rand {| jheader := h; jpayload := payload |} (Some k) = Ok token ->
  (~ false_value algv -> algv = dget (lit "alg") d) ->
  deserialize C token (Some k') algv true = Ok {| jheader := h; jpayload := payload |}.
Proof.
  intros Hw Hp Hk Hk' Hv B Hh Hs Hal. pose proof (json_wf_NoDup _ Hw) as Hn.
  pose proof Hh as Hh'. apply header_again in Hh'; auto.
  assert (Ed : hdict h = full d) by (apply header_iff in Hh; tauto).
  destruct (serialize_ok _ _ _ _ _ _ _ Hk Hn Hh Hs) as (Hperm & hb & Eb & Ht). cbv zeta in Ht.
  set (hs := base64url_encode hb) in *. set (ps := base64url_encode payload) in *.
  assert (Ob : bytes_ok hb) by (apply utf8_encode_ok in Eb; tauto).
  assert (Hperm' : key_permits k' (full d)).
  { apply (key_permits_verifying k k') in Hperm; auto. unfold key_permits in *. rewrite !dget_full by auto. auto. }
  rewrite Ed in Hh'. apply header_iff in Hh' as (Hval & _ & Hl).
  apply deserialize_iff; auto.
  assert (Hgo : forall ss, ~ In 46 ss -> (halg h = Anone \/ exists sig, base64url_decode ss = Ok sig /\ accepts C (jmat k') (alg_name (halg h)) sig (hs ++ 46 :: ps)) ->
     token = (hs ++ 46 :: ps) ++ 46 :: ss ->
     exists hs ps ss hb s d a,
     segments token hs ps ss /\
     base64url_decode hs = Ok hb /\ utf8_decode hb = Some s /\ loads s = Ok (PDict d) /\
     header_valid d /\ lookup (lit "alg") d = Some (PStr (alg_name a)) /\
     hdict (jheader {| jheader := h; jpayload := payload |}) = without_none d /\ halg (jheader {| jheader := h; jpayload := payload |}) = a /\
     base64url_decode ps = Ok (jpayload {| jheader := h; jpayload := payload |}) /\
     (truthy algv = true -> algv = PStr (alg_name a)) /\
     (true = true -> key_permits k' d /\
        (a = Anone \/ exists sig, base64url_decode ss = Ok sig /\ accepts C (jmat k') (alg_name a) sig (hs ++ 46 :: ps)))).
  { intros ss Hss Hacc ->. exists hs, ps, ss, hb, (dumps (PDict (full d))), (full d), (halg h). cbn [jheader jpayload].
    split. { split; [rewrite <- app_assoc; auto|]. split; [apply b64_no_dot; auto|]. split; [apply b64_no_dot; auto|auto]. }
    split; [apply base64url_roundtrip; auto|]. split; [apply utf8_decode_encode; auto|].
    split; [apply loads_dumps, json_wf_full; auto|]. split; auto. split; auto.
    split; [rewrite without_none_full, full_full; auto|]. split; auto. split; [apply base64url_roundtrip; auto|].
    split.
    - intros T. apply true_spec in T. rewrite (Hal T). unfold dget. rewrite lookup_full in Hl by auto. destruct (lookup (lit "alg") d) as [v|]; [|discriminate].
      destruct v; congruence.
    - intros _. split; auto. }
  destruct Ht as [[Ea ->]|(Ha & F & sig & Es & ->)].
  - apply (Hgo []); auto.
  - destruct (mat_sign_accepts _ _ _ _ _ _ Ha F B Es) as [Os Hacc].
    apply (Hgo (base64url_encode sig)); [apply b64_no_dot; auto| |auto]. right. exists sig. split; [apply base64url_roundtrip; auto|].
    apply (accepts_public C (jmat k)); auto. apply (proj1 Hv).
Qed.

(** ** Statement lemmas *)
Lemma utf8_dec_rfc s b : utf8_decode b = Some s <-> rfc3629_str s = Some b.
Proof. rewrite <- utf8_rfc. split; [apply utf8_encode_decode|apply utf8_decode_encode]. Qed.
Lemma lit_none : alg_name Anone = lit "none". Proof. reflexivity. Qed.
Lemma alg_none a : alg_name a = lit "none" <-> a = Anone.
Proof. split; [intros H; apply alg_name_inj; auto|intros ->; auto]. Qed.
Lemma p_jws_iff C token k algv j : constructible C k ->
  (deserialize C token (Some k) algv true = Ok j <->
   exists hs ps ss hb s d name,
     segments token hs ps ss /\
     base64url_decode hs = Ok hb /\ rfc3629_str s = Some hb /\ loads s = Ok (PDict d) /\
     header_valid d /\ lookup (lit "alg") d = Some (PStr name) /\
     hdict (jheader j) = without_none d /\ alg_name (halg (jheader j)) = name /\
     base64url_decode ps = Ok (jpayload j) /\
     (~ false_value algv -> algv = PStr name) /\
     key_permits k d /\
     (name = lit "none" \/
      exists sig, base64url_decode ss = Ok sig /\ accepts C (jmat k) name sig (hs ++ 46 :: ps))).
Proof.
  intros Hk. rewrite deserialize_iff by auto. setoid_rewrite true_spec. split.
  - intros (hs & ps & ss & hb & s & d & a & H1 & H2 & H3 & H4 & H5 & H6 & H7 & H8 & H9 & H10 & H11).
    destruct (H11 eq_refl) as [P S]. exists hs, ps, ss, hb, s, d, (alg_name a).
    repeat (split; [solve [auto | apply utf8_dec_rfc; auto | congruence]|]). rewrite alg_none. auto.
  - intros (hs & ps & ss & hb & s & d & name & H1 & H2 & H3 & H4 & H5 & H6 & H7 & H8 & H9 & H10 & P & S).
    exists hs, ps, ss, hb, s, d, (halg (jheader j)). rewrite H8.
    do 10 (split; [solve [auto | apply utf8_dec_rfc; auto | congruence]|]). intros _. split; auto.
    destruct S as [S|S]; auto. left. apply alg_none. congruence.
Qed.

Lemma p_pinned C token k name j : constructible C k -> name <> [] -> name <> lit "none" ->
  deserialize C token (Some k) (PStr name) true = Ok j ->
  exists hs ps ss hb s d sig, segments token hs ps ss /\
    base64url_decode ss = Ok sig /\ accepts C (jmat k) name sig (hs ++ 46 :: ps) /\
    base64url_decode hs = Ok hb /\ rfc3629_str s = Some hb /\ loads s = Ok (PDict d) /\
    lookup (lit "alg") d = Some (PStr name) /\ hdict (jheader j) = without_none d /\
    base64url_decode ps = Ok (jpayload j).
Proof.
  intros Hk Hne Hnn H. apply p_jws_iff in H; auto.
  destruct H as (hs & ps & ss & hb & s & d & nm & H1 & H2 & H3 & H4 & H5 & H6 & H7 & H8 & H9 & H10 & P & S).
  assert (E : PStr name = PStr nm) by (apply H10; intros F; inversion F; congruence). injection E as <-.
  destruct S as [S|(sig & S1 & S2)]; [congruence|]. exists hs, ps, ss, hb, s, d, sig. auto 12.
Qed.
(** {"alg": "none"} *)
Definition none_header : pdict := [(lit "alg", PStr (lit "none"))].
Definition none_token (payload ss : bytes) : bytes :=
  base64url_encode (lit "{""alg"": ""none""}") ++ 46 :: base64url_encode payload ++ 46 :: ss.
Lemma p_none_accepted C k payload ss : constructible C k -> bytes_ok payload -> ~ In 46 ss ->
  (forall a, In a [lit "alg"; lit "use"; lit "key_ops"] -> lookup a (jdata k) = None) ->
  exists j, deserialize C (none_token payload ss) (Some k) PNone true = Ok j /\ jpayload j = payload /\ hdict (jheader j) = none_header.
Proof.
  intros Hk Hp Hs Hm. exists {| jheader := {| hdict := none_header; halg := Anone |}; jpayload := payload |}.
  split; [|auto]. apply p_jws_iff; auto. cbn [jheader jpayload hdict halg].
  exists (base64url_encode (lit "{""alg"": ""none""}")), (base64url_encode payload), ss, (lit "{""alg"": ""none""}"), (lit "{""alg"": ""none""}"), none_header, (lit "none").
  split. { split; auto. split; [apply inc_nIn; reflexivity|]. split; auto using b64_no_dot. }
  split; [reflexivity|]. split; [reflexivity|]. split; [reflexivity|].
  split. { split; [|split].
    - exists (lit "none"). split; [reflexivity|]. left; auto.
    - intros name v [<-|[<-|[<-|[]]]] H; discriminate.
    - intros v H; discriminate. }
  split; [reflexivity|]. split; [reflexivity|]. split; [reflexivity|]. split; [apply base64url_roundtrip; auto|].
  split; [intros F; destruct F; constructor|]. split; [|left; auto].
  assert (D : forall a, In a [lit "alg"; lit "use"; lit "key_ops"] -> dget a (jdata k) = PNone) by (intros a H; unfold dget; rewrite Hm; auto).
  unfold key_permits. rewrite !(D (lit "alg")), !(D (lit "use")), !(D (lit "key_ops")) by (simpl; tauto).
  assert (F : ~ ~ false_value PNone) by (intros F; apply F; constructor).
  split; [intros T; destruct (F T)|]. split; [intros T; destruct (F T)|]. split; intros T; destruct (F T).
Qed.
Lemma p_signed_partial C token k algv j : constructible C k ->
  deserialize C token (Some k) algv true = Ok j ->
  (~ false_value algv /\ algv <> PStr (lit "none")) \/
  (~ false_value (dget (lit "alg") (jdata k)) /\ dget (lit "alg") (jdata k) <> PStr (lit "none")) ->
  exists hs ps ss sig name, segments token hs ps ss /\ base64url_decode ss = Ok sig /\ base64url_decode ps = Ok (jpayload j) /\
    lookup (lit "alg") (hdict (jheader j)) = Some (PStr name) /\ accepts C (jmat k) name sig (hs ++ 46 :: ps).
Proof.
  intros Hk H Hor. apply p_jws_iff in H; auto.
  destruct H as (hs & ps & ss & hb & s & d & nm & H1 & H2 & H3 & H4 & H5 & H6 & H7 & H8 & H9 & H10 & P & S).
  assert (N : nm <> lit "none").
  { intros ->. destruct Hor as [[T Hn]|[T Hn]]; [apply Hn; auto|]. destruct P as [P _]. apply Hn. rewrite (P T). unfold dget. rewrite H6. auto. }
  destruct S as [S|(sig & S1 & S2)]; [congruence|]. exists hs, ps, ss, sig, nm.
  repeat (split; [solve [auto]|]). split; auto. rewrite H7, without_none_full, lookup_full.
  - rewrite H6. auto.
  - apply loads_dict in H4. tauto.
Qed.
Lemma p_no_confusion C token k algv j name : constructible C k ->
  deserialize C token (Some k) algv true = Ok j -> lookup (lit "alg") (hdict (jheader j)) = Some (PStr name) ->
  (In name (map fst hs_names) -> exists s, jmat k = KOct s) /\
  (In name (map fst rs_names ++ map fst ps_names) -> exists n e o, jmat k = KRSA n e o) /\
  (forall c h, In (name, (c, h)) es_names -> exists x y o, jmat k = KEC c x y o).
Proof.
  intros Hk H Hl. apply p_jws_iff in H; auto.
  destruct H as (hs & ps & ss & hb & s & d & nm & H1 & H2 & H3 & H4 & H5 & H6 & H7 & H8 & H9 & H10 & P & S).
  assert (E : nm = name).
  { rewrite H7, without_none_full, lookup_full, H6 in Hl by (apply loads_dict in H4; tauto). congruence. }
  rewrite E in H8, S. clear E H6 nm H10.
  destruct S as [->|(sig & _ & A)].
  - repeat split; cbn; intuition discriminate.
  - subst name. apply accepts_fits in A as [Ha F]. destruct (halg (jheader j)) as [|h|h|h|h]; try congruence;
      destruct (jmat k) as [|? ? ?|c' x y o]; try (exfalso; exact F).
    + split; [eauto|]. split; destruct h; cbn; intuition discriminate.
    + split; [|split]; [|eauto|]; destruct h; cbn; intuition discriminate.
    + split; [|split]; try (destruct h; cbn; intuition discriminate).
      intros c h' Hin. apply es_in in Hin as [E ->]. injection E as <-. simpl in F. subst. eauto.
    + split; [|split]; [|eauto|]; destruct h; cbn; intuition discriminate.
Qed.
Lemma p_hmac_unused C f k : (forall s, jmat k <> KOct s) ->
  (forall token algv v, deserialize (with_hmac C f) token (Some k) algv v = deserialize C token (Some k) algv v) /\
  (forall rand j, serialize (with_hmac C f) rand j (Some k) = serialize C rand j (Some k)).
Proof.
  intros Hk.
  assert (V : forall sig data h p, mat_verify (with_hmac C f) (jmat k) sig data h p = mat_verify C (jmat k) sig data h p).
  { intros. destruct (jmat k); [congruence|auto|auto]. }
  assert (S : forall rand data h p, mat_sign (with_hmac C f) rand (jmat k) data h p = mat_sign C rand (jmat k) data h p).
  { intros. destruct (jmat k); [congruence|auto|auto]. }
  assert (K : forall a k', alg_validate_key a (Some k) = Ok k' -> k' = k).
  { intros a k'. unfold alg_validate_key. destruct (_ && _); [discriminate|]. destruct (negb _); [discriminate|].
    destruct (alg_curve a); [destruct (negb _); [discriminate|]|]; intros H; apply Ok_inj in H; auto. }
  split.
  - intros token algv v. unfold deserialize. destruct (split_on 46 token) as [|hs [|ps [|ss [|? ?]]]]; auto.
    destruct (base64url_decode hs); auto. cbn [rbind]. destruct (json_loads a); auto. cbn [rbind].
    destruct (JsonWebSignatureHeader a0) as [h|]; auto. cbn [rbind]. destruct (raise_if _ _); auto. cbn [rbind].
    destruct v; auto. destruct (validate_key _ h); auto. cbn [rbind].
    replace (alg_verify (with_hmac C f) (halg h) ss (hs ++ 46 :: ps) (Some k)) with (alg_verify C (halg h) ss (hs ++ 46 :: ps) (Some k)); auto.
    unfold alg_verify. destruct (halg h); auto;
      match goal with |- context [alg_validate_key ?a ?b] => destruct (alg_validate_key a b) eqn:E end; auto; cbn [rbind];
      apply K in E; subst; destruct (base64url_decode ss); auto.
  - intros rand j. unfold serialize. destruct (validate_key _ _); auto. cbn [rbind]. destruct (to_bytes _); auto. cbn [rbind]. cbv zeta.
    match goal with |- rbind ?a _ = rbind ?b _ => assert (E0 : a = b) end.
    { unfold alg_sign. destruct (halg _); auto;
      match goal with |- context [alg_validate_key ?a ?b] => destruct (alg_validate_key a b) eqn:E end; auto; cbn [rbind];
      apply K in E; subst; rewrite S; auto. }
    rewrite E0. auto.
Qed.
Lemma p_permits C k : constructible C k ->
  (forall token algv j, deserialize C token (Some k) algv true = Ok j -> key_permits k (hdict (jheader j))) /\
  (forall rand d h payload token, NoDup (keys d) -> JsonWebSignatureHeader (PDict d) = Ok h ->
     serialize C rand {| jheader := h; jpayload := payload |} (Some k) = Ok token -> key_permits k d).
Proof.
  intros Hk. split.
  - intros token algv j H. apply p_jws_iff in H; auto.
    destruct H as (hs & ps & ss & hb & s & d & nm & H1 & H2 & H3 & H4 & H5 & H6 & H7 & H8 & H9 & H10 & P & S).
    rewrite H7, without_none_full. unfold key_permits in *. apply loads_dict in H4 as [Hn _]. rewrite !dget_full by auto. auto.
  - intros. eapply serialize_ok; eauto.
Qed.
Lemma p_header_iff v h : (JsonWebSignatureHeader v = Ok h <->
  exists d name, v = PDict d /\ header_valid d /\ hdict h = without_none d /\
    lookup (lit "alg") d = Some (PStr name) /\ alg_name (halg h) = name).
Proof.
  split.
  - intros H. destruct (header_nondict _ _ H) as (d & -> & _). apply header_iff in H as (H1 & H2 & H3).
    exists d, (alg_name (halg h)). rewrite without_none_full. auto.
  - intros (d & name & -> & H1 & H2 & H3 & <-). apply header_iff. rewrite <- without_none_full. auto.
Qed.
Lemma p_crit_unknown name : name <> [] -> ~ In name [lit "alg"; lit "crit"; lit "kid"; lit "typ"; lit "cty"] ->
  exists h, JsonWebSignatureHeader (PDict [(lit "alg", PStr (lit "HS256")); (lit "crit", PList [PStr name]); (name, PBool true)]) = Ok h.
Proof.
  intros Hne Hni. eexists {| hdict := _; halg := HS SHA256 |}. apply header_iff. cbn [hdict halg].
  assert (N : forall x, In x [lit "alg"; lit "crit"; lit "kid"; lit "typ"; lit "cty"] -> eqs name x = false /\ eqs x name = false).
  { intros x Hx. split; apply eqs_false; intros ->; auto. }
  split; [|split; [reflexivity|reflexivity]]. split; [|split].
  - exists (lit "HS256"). split; [reflexivity|]. right. left. auto.
  - intros nm v Hin H. exfalso. assert (Hin' := Hin). unfold lookup in H.
    destruct (N nm) as [_ E]; [simpl in *; tauto|]. rewrite E in H.
    destruct Hin as [<-|[<-|[<-|[]]]]; discriminate.
  - intros v H. assert (E : v = PList [PStr name]) by (change (Some (PList [PStr name]) = Some v) in H; congruence). subst. exists [PStr name]. split; auto. split; [discriminate|].
    intros x [<-|[]]. exists name, (PBool true). split; [auto|]. split; [auto|]. split; [|intros F; inversion F]. unfold lookup.
    destruct (N (lit "alg")) as [-> _]; [simpl; tauto|]. destruct (N (lit "crit")) as [-> _]; [simpl; tauto|].
    unfold str in *. rewrite eqs_refl. auto.
Qed.
Lemma p_b64_false d l : lookup (lit "crit") d = Some (PList l) -> In (PStr (lit "b64")) l -> lookup (lit "b64") d = Some (PBool false) ->
  forall h, JsonWebSignatureHeader (PDict d) <> Ok h.
Proof.
  intros Hc Hi Hb h H. apply header_iff in H as ((_ & _ & K) & _). destruct (K _ Hc) as (l' & E & _ & F).
  injection E as <-. destruct (F _ Hi) as (s & w & E & _ & El & T). injection E as <-. rewrite Hb in El. injection El as <-. apply T. constructor.
Qed.
Lemma p_segments C token key algv v :
  (dots token <> 2%nat -> deserialize C token key algv v = Err InvalidJWSSerialization) /\
  (dots token = 2%nat -> deserialize C token key algv v = Err InvalidJWSSerialization ->
     ~ false_value algv /\ exists hs ps ss hb h, segments token hs ps ss /\ base64url_decode hs = Ok hb /\
        rbind (json_loads hb) JsonWebSignatureHeader = Ok h /\ algv <> PStr (alg_name (halg h))).
Proof.
  split.
  - intros H. unfold deserialize. destruct (split_on 46 token) as [|hs [|ps [|ss [|? ?]]]] eqn:E; auto.
    exfalso. apply H, split3_dots. eauto.
  - intros H. apply split3_dots in H as (hs & ps & ss & E). unfold deserialize. rewrite E. apply split3 in E.
    intros H. apply rbind_err in H as [H|(hb & Eh & H)]; [apply base64url_decode_err in H; discriminate|].
    apply rbind_err in H as [H|(hv & Ej & H)]; [unfold json_loads in H; apply loads_err in H; discriminate|].
    apply rbind_err in H as [H|(h & Ehd & H)]; [apply header_err in H as [H|[H|H]]; discriminate|].
    destruct (header_nondict _ _ Ehd) as (d & -> & _).
    assert (Hn : NoDup (keys d)) by (apply json_loads_dict in Ej; [tauto|eapply base64url_decode_bytes_ok; eauto]).
    apply rbind_err in H as [H|(? & _ & H)].
    + unfold raise_if in H. destruct (truthy algv) eqn:T; [|discriminate]. split; [apply true_spec; auto|].
      exists hs, ps, ss, hb, h. split; auto. split; auto. rewrite Ej. split; auto. intros ->.
      rewrite (header_alg_get _ _ Hn Ehd) in H. simpl in H. rewrite eqs_refl in H. discriminate.
    + exfalso. apply rbind_err in H as [H|(? & _ & H)].
      * destruct v; [|discriminate]. apply rbind_err in H as [H|(? & _ & H)].
        { apply validate_key_err in H as [|]; discriminate. }
        { unfold alg_verify in H. destruct (halg h); try discriminate;
          (apply rbind_err in H as [H|(k' & _ & H)];
           [unfold alg_validate_key in H; destruct key; [|discriminate];
            destruct (_ && _); [discriminate|]; destruct (negb _); [discriminate|]; destruct (alg_curve _); [destruct (negb _)|]; discriminate
           |destruct (base64url_decode ss) as [|e] eqn:Eb; [|apply base64url_decode_err in Eb; subst; discriminate];
            unfold mat_verify in H; destruct (jmat k'), (alg_padding _); try discriminate;
            repeat match type of H with context [if ?b then _ else _] => destruct b end; try discriminate;
            destruct (der_parse _); [destruct (_ && _)|]; discriminate]). }
      * apply rbind_err in H as [H|(? & _ & H)]; [apply base64url_decode_err in H; discriminate|discriminate].
Qed.
Lemma p_jws_errors C token key algv v e : deserialize C token key algv v = Err e -> In e (jws_errors ++ jws_escaping).
Proof.
  unfold deserialize. destruct (split_on 46 token) as [|hs [|ps [|ss [|? ?]]]]; try (intros H; injection H as <-; cbn; tauto).
  intros H. apply rbind_err in H as [H|(hb & Eh & H)]; [apply base64url_decode_err in H; subst; cbn; tauto|].
  apply rbind_err in H as [H|(hv & Ej & H)]; [unfold json_loads in H; apply loads_err in H; subst; cbn; tauto|].
  apply rbind_err in H as [H|(h & Ehd & H)]; [apply header_err in H as [H|[H|H]]; subst; cbn; tauto|].
  apply rbind_err in H as [H|(? & _ & H)]; [unfold raise_if in H; destruct (_ && _); [injection H as <-; cbn; tauto|discriminate]|].
  apply rbind_err in H as [H|(? & _ & H)].
  - destruct v; [|discriminate]. apply rbind_err in H as [H|(? & _ & H)].
    { apply validate_key_err in H as [|]; subst; cbn; tauto. }
    { assert (K : e = InvalidKey \/ e = InvalidSignature \/ e = ValueError \/ e = TypeError).
      { unfold alg_verify in H. destruct (halg h); try discriminate;
          (apply rbind_err in H as [H|(k' & _ & H)];
           [unfold alg_validate_key in H; destruct key; [|left; congruence];
            destruct (_ && _); [left; congruence|]; destruct (negb _); [left; congruence|]; destruct (alg_curve _); [destruct (negb _)|]; left; congruence
           |destruct (base64url_decode ss) as [|e'] eqn:Eb; [|apply base64url_decode_err in Eb; subst; right; left; congruence];
            unfold mat_verify in H; destruct (jmat k'), (alg_padding _); try (right; right; right; congruence);
            repeat match type of H with context [if ?b then _ else _] => destruct b end; try discriminate;
            try (right; left; congruence); try (right; right; left; congruence);
            destruct (der_parse _); [destruct (_ && _)|]; right; left; congruence]). }
      cbn; intuition. }
  - apply rbind_err in H as [H|(? & _ & H)]; [apply base64url_decode_err in H; subst; cbn; tauto|discriminate].
Qed.
Lemma segments_inj t a b c a' b' c' : segments t a b c -> segments t a' b' c' -> a = a' /\ b = b' /\ c = c'.
Proof. intros H1 H2. apply split3 in H1, H2. rewrite H1 in H2. injection H2 as <- <- <-. auto. Qed.
Lemma p_hmac_unique C s k hs ps ss1 ss2 algv1 algv2 j1 j2 : constructible C k -> jmat k = KOct s ->
  segments (hs ++ 46 :: ps ++ 46 :: ss1) hs ps ss1 -> segments (hs ++ 46 :: ps ++ 46 :: ss2) hs ps ss2 ->
  deserialize C (hs ++ 46 :: ps ++ 46 :: ss1) (Some k) algv1 true = Ok j1 ->
  deserialize C (hs ++ 46 :: ps ++ 46 :: ss2) (Some k) algv2 true = Ok j2 ->
  j1 = j2 /\ (lookup (lit "alg") (hdict (jheader j1)) <> Some (PStr (lit "none")) -> base64url_decode ss1 = base64url_decode ss2).
Proof.
  intros Hk Em S1 S2 H1 H2. apply p_jws_iff in H1; auto. apply p_jws_iff in H2; auto.
  destruct H1 as (hs1 & ps1 & t1 & hb1 & s1 & d1 & n1 & A1 & A2 & A3 & A4 & A5 & A6 & A7 & A8 & A9 & A10 & A11 & A12).
  destruct H2 as (hs2 & ps2 & t2 & hb2 & s2 & d2 & n2 & B1 & B2 & B3 & B4 & B5 & B6 & B7 & B8 & B9 & B10 & B11 & B12).
  destruct (segments_inj _ _ _ _ _ _ _ A1 S1) as (-> & -> & ->). destruct (segments_inj _ _ _ _ _ _ _ B1 S2) as (-> & -> & ->).
  rewrite A2 in B2. apply Ok_inj in B2. subst hb2. apply utf8_dec_rfc in A3. apply utf8_dec_rfc in B3.
  rewrite A3 in B3. injection B3 as <-. rewrite A4 in B4. injection B4 as <-. rewrite A6 in B6. injection B6 as <-.
  rewrite A9 in B9. apply Ok_inj in B9. split.
  - destruct j1 as [[x1 y1] z1], j2 as [[x2 y2] z2]. cbn [jheader jpayload hdict halg] in *.
    f_equal; [f_equal|]; [congruence|apply alg_name_inj; congruence|congruence].
  - intros Hn.
    assert (N : n1 <> lit "none").
    { intros ->. apply Hn. rewrite A7, without_none_full, lookup_full, A6; auto. apply loads_dict in A4; tauto. }
    destruct A12 as [|(g1 & E1 & C1)]; [contradiction|]. destruct B12 as [|(g2 & E2 & C2)]; [contradiction|].
    rewrite E1, E2. f_equal. rewrite Em in C1, C2. inversion C1 as [? ? h1 ? I1| | |]; subst. inversion C2 as [? ? h2 ? I2| | |]; subst.
    replace h2 with h1; auto. apply hs_in in I1, I2. congruence.
Qed.
Lemma a2b_skip a b : forall qp left pads, a2b (a ++ 33 :: b) qp left pads = a2b (a ++ b) qp left pads.
Proof.
  induction a as [|c r IH]; intros; [reflexivity|]. cbn [a2b app].
  destruct (c =? PAD); [|destruct (b64val c)];
    repeat match goal with |- context [if ?b then _ else _] => destruct b end; auto; rewrite !IH; auto.
Qed.
Definition junk : bytes := [33; 33; 33; 33].
Lemma b64_junk ss : base64url_decode (ss ++ junk) = base64url_decode ss.
Proof.
  unfold base64url_decode. replace (Nat.modulo (length (ss ++ junk)) 4) with (Nat.modulo (length ss) 4).
  - unfold urlsafe_b64decode, b64decode. rewrite !map_app, <- !app_assoc. simpl map at 2. unfold url_to_std at 2 3 4 5.
    change (33 =? 45) with false. change (33 =? 95) with false. cbv iota. cbn [app]. rewrite !a2b_skip. auto.
  - rewrite app_length. change (length junk) with 4%nat.
    replace (length ss + 4)%nat with (length ss + 1 * 4)%nat by reflexivity. rewrite Nat.mod_add; auto.
Qed.
Lemma p_malleable C token key algv v j : deserialize C token key algv v = Ok j ->
  deserialize C (token ++ junk) key algv v = Ok j.
Proof.
  unfold deserialize. destruct (split_on 46 token) as [|hs [|ps [|ss [|? ?]]]] eqn:E; try discriminate.
  apply split3 in E. destruct E as (-> & E1 & E2 & E3).
  assert (E' : split_on 46 ((hs ++ 46 :: ps ++ 46 :: ss) ++ junk) = [hs; ps; ss ++ junk]).
  { apply split3. split; [rewrite <- !app_assoc; simpl; rewrite <- !app_assoc; auto|].
    split; auto. split; auto. rewrite in_app_iff. unfold junk. simpl. intuition discriminate. }
  rewrite E'. intros H. rewrite <- H. clear H. destruct (base64url_decode hs); auto. cbn [rbind].
  destruct (json_loads a); auto. cbn [rbind]. destruct (JsonWebSignatureHeader a0) as [h|]; auto. cbn [rbind].
  destruct (raise_if _ _); auto. cbn [rbind]. destruct v; auto. destruct (validate_key key h); auto. cbn [rbind].
  unfold alg_verify. rewrite b64_junk. auto.
Qed.
