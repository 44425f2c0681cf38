(** Decimal texts: [str(n)] against SpecReaders.v. *)
From Coq Require Import String Ascii List NArith ZArith Bool Lia ZifyBool ZifyNat ZifyN.
From Verif Require Import Base Json JsonFacts SpecReaders ReaderFacts.
Import ListNotations.
Open Scope N_scope.

Lemma decimal_bound r : Forall digit r -> (0 <= decimal r < 10 ^ Z.of_nat (List.length r))%Z.
Proof.
  induction 1 as [|c r Hc _ IH]; cbn [decimal List.length]; [cbn; lia|]. unfold digit in Hc.
  rewrite Nat2Z.inj_succ, Z.pow_succ_r by lia. nia.
Qed.
Lemma int_digits t : int_text t -> Forall digit t.
Proof. intros [|d r H1 H2 H3]; [constructor; [unfold digit; lia|constructor]|]. constructor; auto. Qed.
Lemma decimal_inj a : forall b, Forall digit a -> Forall digit b -> List.length a = List.length b -> decimal a = decimal b -> a = b.
Proof.
  induction a as [|x a IH]; intros [|y b] Ha Hb L E; try discriminate; auto.
  cbn [List.length] in L. injection L as L. inversion Ha as [|? ? A1 A2]; subst. inversion Hb as [|? ? B1 B2]; subst.
  cbn [decimal] in E. rewrite L in E. pose proof (decimal_bound _ A2) as Da. pose proof (decimal_bound _ B2) as Db. rewrite L in Da.
  unfold digit in A1, B1. set (p := (10 ^ Z.of_nat (List.length b))%Z) in *.
  assert (x = y) as -> by nia. f_equal. apply IH; auto. lia.
Qed.
Lemma int_inj a b : int_text a -> int_text b -> decimal a = decimal b -> a = b.
Proof.
  intros Ha Hb E. pose proof (int_digits _ Ha) as Da. pose proof (int_digits _ Hb) as Db. apply decimal_inj; auto.
  assert (P : forall d r, digit d -> d <> 48 -> Forall digit r -> (10 ^ Z.of_nat (List.length r) <= decimal (d :: r) < 10 ^ Z.succ (Z.of_nat (List.length r)))%Z).
  { intros d r H1 H2 H3. pose proof (decimal_bound _ (Forall_cons _ H1 H3)) as B. pose proof (decimal_bound _ H3) as B'. cbn [List.length] in B. rewrite Nat2Z.inj_succ in B.
    split; [|lia]. cbn [decimal]. unfold digit in H1. nia. }
  assert (Q : forall d r, digit d -> d <> 48 -> Forall digit r -> decimal (d :: r) <> 0%Z).
  { intros d r H1 H2 H3. pose proof (P d r H1 H2 H3). assert (0 < 10 ^ Z.of_nat (List.length r))%Z by lia. lia. }
  destruct Ha as [|d r H1 H2 H3], Hb as [|d' r' K1 K2 K3]; auto.
  - exfalso. apply (Q _ _ K1 K2 K3). rewrite <- E. reflexivity.
  - exfalso. apply (Q _ _ H1 H2 H3). rewrite E. reflexivity.
  - pose proof (P _ _ H1 H2 H3) as P1. pose proof (P _ _ K1 K2 K3) as P2. cbn [List.length]. f_equal.
    set (a := Z.of_nat (List.length r)) in *. set (b := Z.of_nat (List.length r')) in *.
    assert (a = b) as L; [|unfold a, b in L; lia].
    assert (a < Z.succ b)%Z by (apply (Z.pow_lt_mono_r_iff 10); lia). assert (b < Z.succ a)%Z by (apply (Z.pow_lt_mono_r_iff 10); lia). lia.
Qed.
Lemma dec_iff z t : number_text t (PInt z) /\ t <> chars "-0" <-> t = dec_Z z.
Proof.
  pose proof (dec_number z) as H0.
  assert (S : forall i, int_text i -> (0 <= decimal i)%Z) by (intros i Hi; apply decimal_bound, int_digits, Hi).
  assert (Zr : forall i, int_text i -> decimal i = 0%Z -> i = [48]) by (intros i Hi E; apply int_inj; auto; constructor).
  assert (M : forall i, int_text i -> hd_error i <> Some 45) by (intros i [|d r Hd _ _]; cbn; [discriminate|unfold digit in Hd; intros [= ->]; lia]).
  assert (U : forall t, number_text t (PInt z) -> t <> chars "-0" -> (0 <= z /\ exists i, t = i /\ int_text i /\ decimal i = z)%Z \/ (z < 0 /\ exists i, t = (45 :: i)%N /\ int_text i /\ decimal i = - z)%Z).
  { intros t0 Ht Hn. inversion Ht as [i Hi E1 E2|i Hi E1 E2|].
    - left. split; [pose proof (S _ Hi); lia|]. exists t0. auto.
    - right. rewrite <- E1 in Hn. pose proof (S _ Hi). destruct (Z.eq_dec (decimal i) 0) as [E|E]; [rewrite (Zr _ Hi E) in Hn; destruct Hn; reflexivity|].
      split; [lia|]. exists i. split; auto. split; auto. lia. }
  assert (N0 : dec_Z z <> chars "-0").
  { intros E. rewrite E in H0. inversion H0 as [i Hi E1 E2|i Hi E1 E2|].
    - apply M in Hi. apply Hi. reflexivity.
    - rewrite <- E2 in E. cbn in E. destruct i as [|c [|]]; try discriminate. }
  split; [|intros ->; auto]. intros [H1 H2]. apply U in H1; auto. apply U in H0; auto.
  destruct H1 as [(Z1 & i & -> & I1 & D1)|(Z1 & i & -> & I1 & D1)], H0 as [(Z2 & j & -> & I2 & D2)|(Z2 & j & -> & I2 & D2)]; try lia.
  - apply int_inj; auto. congruence.
  - f_equal. apply int_inj; auto. congruence.
Qed.
