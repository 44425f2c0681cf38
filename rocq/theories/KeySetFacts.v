(** Proof of C136. *)
From Coq Require Import String Ascii List NArith ZArith Bool Lia.
From Verif Require Import Base BaseFacts Webtools WebtoolsFacts Crypto Jwk JwkFacts SpecKey SpecReaders JoseErrFacts SpecJws JwsFacts SpecJwkErr JwkErrFacts SpecKeySet.
Import ListNotations.
Open Scope N_scope.

Section Set_.
Variable C : crypto.

Lemma errs_app l1 l2 : errs l1 -> errs l2 -> errs (l1 ++ l2).
Proof. unfold errs. intros. apply Forall_app. auto. Qed.
Lemma errs_only P l : errs l -> errs (only_if P l).
Proof. unfold errs, only_if. intros H. apply Forall_map. revert H. apply Forall_impl. auto. Qed.
Lemma errs_num d name : errs (number_checks d name).
Proof. unfold errs, number_checks. repeat constructor; discriminate. Qed.
Lemma errs_jwk v : errs (jwk_checks C v).
Proof.
  unfold jwk_checks. destruct v; try (repeat constructor; discriminate).
Qed.
Lemma errs_flat l : errs (flat_map (jwk_checks C) l).
Proof. induction l; cbn [flat_map]; [constructor|]. apply errs_app; auto. apply errs_jwk. Qed.
Lemma tells_keys l : recover_raises C -> tells (flat_map (jwk_checks C) l) (mapR (JsonWebKey C) l).
Proof.
  intros Hr. induction l as [|x l IH]; cbn [flat_map mapR]; [apply tells_nil|].
  apply tells_bind; [apply errs_jwk|apply key_tells, Hr|]. intros k _.
  eapply tells_map; [|exact IH]. destruct (mapR (JsonWebKey C) l); reflexivity.
Qed.
Lemma key_id x k i : names_once x -> JsonWebKey C x = Ok k -> (has_id x i <-> kid k = i /\ i <> PNone).
Proof.
  intros Hn H. apply c15 in H as (d & -> & _ & Hd). unfold has_id, kid. rewrite Hd.
  rewrite without_none_full, dget_full by (apply Hn; reflexivity).
  split.
  - intros (d' & E & M & I). injection E as <-. apply member_get in M. auto.
  - intros (E & I). exists d. split; auto. split; auto. rewrite <- E. apply get_member. congruence.
Qed.
Lemma equal_iff i j : hashable i = true -> hashable j = true -> (equal_ids i j <-> py_eq i j = true).
Proof.
  intros H1 H2. unfold equal_ids. split.
  - intros [<-|(b & [[-> ->]|[-> ->]])]; cbn [py_eq]; try apply Z.eqb_refl.
    destruct i; cbn in *; try discriminate; auto using eqb_reflx, Z.eqb_refl, eqs_refl.
  - destruct i, j; cbn in *; try discriminate; intros H; try (left; reflexivity);
      try (apply eqb_prop in H; subst; auto); try (apply Z.eqb_eq in H; subst; auto);
      try (apply eqs_true in H; subst; auto); right; eexists; [left|right]; split; reflexivity.
Qed.
Lemma hash_iff i : hashable i = true <-> (forall m, i <> PList m) /\ (forall m, i <> PDict m).
Proof.
  split; [intros H; split; intros m ->; discriminate|]. intros [H1 H2]. destruct i; auto; [destruct (H1 l); auto|destruct (H2 d); auto].
Qed.
Lemma distinct_iff l : distinct l = true <-> forall l1 x l2 y l3, l = l1 ++ x :: l2 ++ y :: l3 -> py_eq x y = false.
Proof.
  split; [intros H l1 x l2 y l3 ->; eapply distinct_pair; exact H|]. induction l as [|x l IH]; intros H; cbn [distinct]; auto.
  apply andb_true_iff. split.
  - apply negb_true_iff, not_true_iff_false. unfold py_in. intros E. apply existsb_exists in E as (y & Hy & E).
    apply in_split in Hy as (l2 & l3 & ->). rewrite (H [] x l2 y l3 eq_refl) in E. discriminate.
  - apply IH. intros l1 a l2 b l3 ->. apply (H (x :: l1) a l2 b l3). reflexivity.
Qed.
Lemma F2_split {A B} (R : A -> B -> Prop) l1 x l2 m : Forall2 R (l1 ++ x :: l2) m -> exists m1 y m2, m = m1 ++ y :: m2 /\ Forall2 R l1 m1 /\ R x y /\ Forall2 R l2 m2.
Proof.
  intros H. apply Forall2_app_inv_l in H as (m1 & m' & H1 & H2 & ->). inversion H2; subst. eauto 8.
Qed.
Lemma F2_split_r {A B} (R : A -> B -> Prop) m1 y m2 l : Forall2 R l (m1 ++ y :: m2) -> exists l1 x l2, l = l1 ++ x :: l2 /\ Forall2 R l1 m1 /\ R x y /\ Forall2 R l2 m2.
Proof.
  intros H. apply Forall2_app_inv_r in H as (l1 & l' & H1 & H2 & ->). inversion H2; subst. eauto 8.
Qed.
Lemma F2_in {A B} (R : A -> B -> Prop) l m : Forall2 R l m -> (forall x, In x l -> exists y, In y m /\ R x y) /\ (forall y, In y m -> exists x, In x l /\ R x y).
Proof.
  induction 1 as [|x y l m H F [I1 I2]]; split; try (intros ? []).
  - subst. eexists; split; [left; reflexivity|auto].
  - destruct (I1 _ H0) as (z & ? & ?). exists z. split; auto. right; auto.
  - subst. eexists; split; [left; reflexivity|auto].
  - destruct (I2 _ H0) as (z & ? & ?). exists z. split; auto. right; auto.
Qed.
Lemma tells_ids l ks : Forall names_once l -> mapR (JsonWebKey C) l = Ok ks -> tells (id_checks l) (JsonWebKeySet (map Some ks)).
Proof.
  intros Hn Hm. apply mapR_Forall2 in Hm. unfold id_checks.
  assert (F : Forall2 (fun x k => forall i, has_id x i <-> kid k = i /\ i <> PNone) l ks).
  { clear -Hn Hm. induction Hm as [|x k l ks H F IH]; constructor; inversion Hn; subst; auto. intros i. apply key_id; auto. }
  clear Hm Hn. destruct (F2_in _ _ _ F) as [F1 F2]. unfold JsonWebKeySet.
  destruct ks as [|k0 ks0]; [inversion F; subst; apply tells_fail; congruence|]. cbn [map]. change (Some k0 :: map Some ks0) with (map Some (k0 :: ks0)). set (ks := k0 :: ks0) in *.
  rewrite all_some_map. change (map (fun k : jwk => dget (lit "kid") (jdata k)) ks) with (map kid ks).
  apply tells_pass; [intros ->; inversion F|].
  destruct (existsb is_none (map kid ks)) eqn:En.
  { apply tells_fail. intros H. apply existsb_exists in En as (i & Hi & Hv). apply in_map_iff in Hi as (k & <- & Hk). destruct (F2 _ Hk) as (x & Hx & R).
    destruct (H _ Hx) as (i & Hi). apply R in Hi as [<- Hi]. destruct (kid k); try discriminate. congruence. }
  assert (En' : forall k, In k ks -> kid k <> PNone).
  { intros k Hk E. apply not_true_iff_false in En. apply En, existsb_exists. exists (kid k). split; [apply in_map, Hk|rewrite E; reflexivity]. }
  apply tells_pass. { intros x Hx. destruct (F1 _ Hx) as (k & Hk & R). exists (kid k). apply R. split; auto. }
  destruct (forallb hashable (map kid ks)) eqn:Eh; cbn [negb].
  2:{ apply tells_fail. intros H. apply not_true_iff_false in Eh. apply Eh, forallb_forall. intros i Hi. apply in_map_iff in Hi as (k & <- & Hk).
      destruct (F2 _ Hk) as (x & Hx & R). apply hash_iff. apply (H x); auto. apply R. split; auto. }
  rewrite forallb_forall in Eh.
  apply tells_pass. { intros x i Hx Hi. destruct (F1 _ Hx) as (k & Hk & R). pose proof (proj1 (R _) Hi) as [Ei _]. rewrite <- Ei. apply hash_iff, Eh, in_map, Hk. }
  destruct (distinct (map kid ks)) eqn:Ed; cbn [negb].
  - apply tells_pass; [|apply tells_nil]. intros l1 x l2 y l3 i j -> Hi Hj E.
    apply F2_split in F as (m1 & k & m2 & E1 & _ & Rx & G). apply F2_split in G as (m2' & k' & m3 & -> & _ & Ry & _). pose proof (proj1 (Rx _) Hi) as [Ei _]. pose proof (proj1 (Ry _) Hj) as [Ej _]. rewrite <- Ei, <- Ej in E.
    assert (I1 : In k ks) by (rewrite E1; apply in_or_app; right; left; reflexivity).
    assert (I2 : In k' ks) by (rewrite E1; apply in_or_app; right; right; apply in_or_app; right; left; reflexivity).
    apply equal_iff in E; [|apply Eh, in_map; auto|apply Eh, in_map; auto].
    rewrite E1, map_app, map_cons, map_app, map_cons in Ed. apply distinct_pair in Ed. congruence.
  - apply tells_fail. intros H. apply not_true_iff_false in Ed. apply Ed, distinct_iff. intros l1 a l2 b l3 E. apply not_true_iff_false. intros Q.
    apply map_eq_app in E as (m1 & m' & E1 & _ & E). destruct m' as [|k m']; [discriminate|]. cbn [map] in E. injection E as Ea E.
    apply map_eq_app in E as (m2 & m'' & -> & _ & E). destruct m'' as [|k' m3]; [discriminate|]. cbn [map] in E. injection E as Eb _. rewrite <- Ea, <- Eb in Q.
    rewrite E1 in F. apply F2_split_r in F as (p1 & x & p2 & -> & _ & Rx & G). apply F2_split_r in G as (p2' & y & p3 & -> & _ & Ry & _).
    assert (I1 : In k ks) by (rewrite E1; apply in_or_app; right; left; reflexivity).
    assert (I2 : In k' ks) by (rewrite E1; apply in_or_app; right; right; apply in_or_app; right; left; reflexivity).
    eapply (H p1 x p2' y p3 (kid k) (kid k')); [reflexivity|apply Rx; auto|apply Ry; auto|].
    apply equal_iff; auto; apply Eh, in_map; auto.
Qed.
Theorem c136 v err : recover_raises C -> (forall name w, v = PDict [(name, w)] -> Forall names_once (elements w)) ->
  (decided (keyset_checks C v) None err <-> match jwks_load C v with Ok _ => err = None | Err x => err = Some x end).
Proof.
  intros Hr Hn.
  assert (T : tells (keyset_checks C v) (jwks_load C v)).
  2:{ rewrite (T err). destruct (jwks_load C v); reflexivity. }
  unfold keyset_checks, jwks_load. destruct v as [| | | | | |[|[name w] [|]]]; try (apply tells_fail; tauto).
  cbn [app]. destruct (eqs name (lit "keys")) eqn:En; cbn [negb].
  2:{ apply tells_fail. intros ->. change (chars "keys") with (lit "keys") in En. rewrite eqs_refl in En. discriminate. }
  apply eqs_true in En. apply tells_pass; [exact En|].
  assert (I : (no_loop w /\ iter_val w = Err TypeError) \/ (~ no_loop w /\ iter_val w = Ok (elements w))).
  { destruct w; cbn [iter_val elements]; first [left; split; [split; [|split]; discriminate|reflexivity]|right; split; [|reflexivity]; intros (A & B & D)].
    - apply (B s); auto. - apply (A l); auto. - apply (D d); auto. }
  destruct I as [[I ->]|[I ->]]; cbn [rbind]; [apply tells_fail; tauto|]. apply tells_pass; [exact I|].
  apply tells_bind; [apply errs_flat|apply tells_keys, Hr|]. intros ks Hk. apply tells_ids; auto. eapply Hn. reflexivity.
Qed.
(** ** Dumping *)
Theorem c136_dump ks pub :
  match jwks_dump ks pub with
  | Ok _ => pub = true \/ Forall (fun k => has_private (jmat k) = true) ks
  | Err e => e = RuntimeError /\ pub = false /\ exists k, In k ks /\ has_private (jmat k) = false
  end.
Proof.
  unfold jwks_dump. destruct (mapR (fun k => jwk_dump k pub) ks) as [l|e] eqn:E; cbn [rbind].
  - destruct pub; [left; reflexivity|right]. apply mapR_Forall2 in E. induction E as [|k d ks l H F IH]; constructor; auto.
    unfold jwk_dump in H. destruct (jmat k) as [|n e [p|]|c x y [p|]]; auto; discriminate.
  - revert e E. induction ks as [|k ks IH]; cbn [mapR]; intros e E; [discriminate|].
    destruct (jwk_dump k pub) as [d|e'] eqn:D; cbn [rbind] in E.
    + destruct (mapR _ ks) as [l|e'] eqn:M; cbn [rbind] in E; [discriminate|]. injection E as <-. destruct (IH _ eq_refl) as (-> & -> & k' & ? & ?). repeat split; auto. exists k'. split; auto. right; auto.
    + injection E as <-. unfold jwk_dump in D. destruct pub; [destruct (jmat k); discriminate|].
      assert (X : has_private (jmat k) = false /\ e' = RuntimeError) by (destruct (jmat k) as [|n e [p|]|c x y [p|]]; cbn in D |- *; try discriminate; split; congruence).
      destruct X as [X ->]. repeat split; auto. exists k. split; auto. left; auto.
Qed.
End Set_.
