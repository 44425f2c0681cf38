(** [truthy], [py_eq] and [py_in] against SpecPy. *)
From Coq Require Import String Ascii List NArith ZArith Bool Lia ZifyBool ZifyNat ZifyN.
From Verif Require Import Base BaseFacts SpecPy.
Import ListNotations.
Open Scope N_scope.

Lemma zero_spec s : lexeme_zero s = true <-> exists m e, s = m ++ e /\ Forall (fun c => In c [45; 46; 48]) m /\ In (firstn 1 e) [[]; [69]; [101]].
Proof.
  split.
  - induction s as [|c s IH]; cbn [lexeme_zero]; intros H; [exists [], []; repeat split; auto; left; auto|].
    destruct ((c =? 101) || (c =? 69)) eqn:E.
    + exists [], (c :: s). repeat split; auto. cbn [firstn In]. assert (c = 69 \/ c = 101) as [-> | ->] by lia; auto.
    + destruct ((c =? 45) || (c =? 46) || (c =? 48)) eqn:E2; [|discriminate]. destruct (IH H) as (m & e & -> & Hm & He).
      exists (c :: m), e. repeat split; auto. constructor; auto. cbn [In]. lia.
  - intros (m & e & -> & Hm & He). induction Hm as [|c m Hc Hm IH]; cbn [app].
    + destruct e as [|c e]; auto. cbn [firstn In] in He. cbn [lexeme_zero]. replace ((c =? 101) || (c =? 69)) with true; auto.
      destruct He as [He|[He|[He|[]]]]; inversion He; reflexivity.
    + cbn [lexeme_zero]. cbn [In] in Hc. replace ((c =? 101) || (c =? 69)) with false by lia. replace ((c =? 45) || (c =? 46) || (c =? 48)) with true by lia. exact IH.
Qed.
Lemma false_spec v : truthy v = false <-> false_value v.
Proof.
  split.
  - destruct v as [|[|]|z|s|[|c s]|[|x l]|[|x d]]; cbn [truthy]; intros H; try discriminate; try constructor.
    + replace z with 0%Z by lia. constructor.
    + apply negb_false_iff in H. apply zero_spec in H as (m & e & -> & Hm & He). constructor; auto.
  - intros [| | |m e Hm He| | |]; cbn [truthy]; auto. apply negb_false_iff. apply zero_spec. eauto.
Qed.
Lemma true_spec v : truthy v = true <-> ~ false_value v.
Proof. rewrite <- false_spec. destruct (truthy v); split; congruence. Qed.
Lemma lookup_iff {V} k (d : list (str * V)) v :
  lookup k d = Some v <-> exists pre post, d = pre ++ (k, v) :: post /\ ~ In k (map fst pre).
Proof.
  split.
  - induction d as [|[k' v'] d IH]; cbn [lookup]; [discriminate|]. destruct (eqs k k') eqn:E; intros H.
    + apply eqs_true in E. injection H as <-. subst. exists [], d. auto.
    + destruct (IH H) as (pre & post & -> & Hn). exists ((k', v') :: pre), post. split; auto. cbn [map fst In].
      intros [->|X]; auto. rewrite (proj2 (eqs_true k k) eq_refl) in E. discriminate.
  - intros (pre & post & -> & Hn). induction pre as [|[k' v'] pre IH]; cbn [app lookup].
    + rewrite (proj2 (eqs_true k k) eq_refl). reflexivity.
    + cbn [map fst In] in Hn. destruct (eqs k k') eqn:E; [apply eqs_true in E; subst; tauto|]. apply IH. tauto.
Qed.
Lemma same_iff a : forall b, py_eq a b = true <-> same a b.
Proof.
  induction a as [|b1|z|s|s|l IH|d IH] using pyval_ind'; intros b.
  - destruct b; cbn [py_eq]; split; try discriminate; intros H; try constructor; inversion H; subst; auto;
      match goal with X : whole PNone _ |- _ => inversion X end.
  - destruct b as [|b2|z| | | |]; cbn [py_eq]; split; try discriminate; intros H.
    all: try (apply eqb_prop in H; subst; destruct b2; eapply same_whole; constructor).
    all: try (apply Z.eqb_eq in H; subst; destruct b1; eapply same_whole; constructor).
    all: inversion H as [|a' b' z' X Y| | | |]; subst; inversion X; subst; inversion Y; subst; reflexivity.
  - destruct b as [|b2|z2| | | |]; cbn [py_eq]; split; try discriminate; intros H.
    all: try (apply Z.eqb_eq in H; subst; try destruct b2; eapply same_whole; constructor).
    all: inversion H as [|a' b' z' X Y| | | |]; subst; inversion X; subst; inversion Y; subst; try reflexivity; apply Z.eqb_refl.
  - destruct b as [| | |s2| | |]; cbn [py_eq]; split; try discriminate; intros H;
      try (inversion H; subst; match goal with X : whole (PFloat _) _ |- _ => inversion X end).
    + apply eqs_true in H. subst. constructor.
    + inversion H; subst; [match goal with X : whole (PFloat _) _ |- _ => inversion X end|]. apply eqs_true. reflexivity.
  - destruct b as [| | | |s2| |]; cbn [py_eq]; split; try discriminate; intros H;
      try (inversion H; subst; match goal with X : whole (PStr _) _ |- _ => inversion X end).
    + apply eqs_true in H. subst. constructor.
    + inversion H; subst; [match goal with X : whole (PStr _) _ |- _ => inversion X end|]. apply eqs_true. reflexivity.
  - destruct b as [| | | | |m|]; try (cbn [py_eq]; split; [discriminate|]; intros H; inversion H; subst; match goal with X : whole (PList _) _ |- _ => inversion X end).
    transitivity (Forall2 same l m).
    + revert m. induction IH as [|x l Hx Hl IHl]; intros [|y m].
      * split; [intros _; constructor|reflexivity].
      * split; [discriminate|]. intros H; inversion H.
      * split; [discriminate|]. intros H; inversion H.
      * specialize (IHl m). cbn [py_eq] in *. rewrite andb_true_iff, IHl, (Hx y). split.
        -- intros [A B]. constructor; auto.
        -- intros H; inversion H; auto.
    + split; intros H; [constructor; auto|]. inversion H; subst; auto. match goal with X : whole (PList _) _ |- _ => inversion X end.
  - destruct b as [| | | | | |e]; try (cbn [py_eq]; split; [discriminate|]; intros H; inversion H; subst; match goal with X : whole (PDict _) _ |- _ => inversion X end).
    transitivity (List.length d = List.length e /\
      Forall (fun kv => exists pre w post, e = pre ++ (fst kv, w) :: post /\ ~ In (fst kv) (map fst pre) /\ same (snd kv) w) d).
    + cbn [py_eq]. rewrite andb_true_iff, Nat.eqb_eq. apply and_iff_compat_l.
      induction IH as [|[k u] d Hu Hd IHd]; [split; [constructor|auto]|].
      rewrite andb_true_iff, Forall_cons_iff, IHd. apply and_iff_compat_r. cbn [fst snd] in *.
      destruct (lookup k e) as [v|] eqn:E.
      * rewrite (Hu v). apply lookup_iff in E as E'. destruct E' as (pre & post & He & Hn). split.
        -- intros H. exists pre, v, post. auto.
        -- intros (pre' & w & post' & He' & Hn' & Hw).
           assert (L : lookup k e = Some w) by (apply lookup_iff; eauto). congruence.
      * split; [discriminate|]. intros (pre' & w & post' & He' & Hn' & Hw).
        assert (L : lookup k e = Some w) by (apply lookup_iff; eauto). congruence.
    + split; intros H; [destruct H; constructor; auto|]. inversion H; subst; auto. match goal with X : whole (PDict _) _ |- _ => inversion X end.
Qed.
Lemma among_iff x l : py_in x l = true <-> among x l.
Proof.
  unfold py_in, among. rewrite existsb_exists. split; intros (y & Hy & E); exists y; (split; [auto|]); apply same_iff; auto.
Qed.
