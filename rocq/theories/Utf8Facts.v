(** Facts about Utf8.v. *)
From Coq Require Import List NArith ZArith Bool Lia ZifyBool ZifyNat ZifyN.
From Verif Require Import Base BaseFacts Utf8.
Import ListNotations.
Open Scope N_scope.
Ltac Zify.zify_post_hook ::= Z.div_mod_to_equations.

Ltac bd :=
  repeat match goal with
  | H : (_ && _) = true |- _ => apply andb_true_iff in H; destruct H
  | H : (_ || _) = false |- _ => apply orb_false_iff in H; destruct H
  | H : negb _ = true |- _ => apply negb_true_iff in H
  | H : negb _ = false |- _ => apply negb_false_iff in H
  end.

Lemma enc1_scalar c : is_scalar c = true -> exists b, enc1 c = Some b.
Proof.
  intros H. unfold enc1. destruct (c <? 128); eauto. destruct (c <? 2048); eauto.
  rewrite H; simpl. destruct (c <? 65536); eauto.
Qed.

Lemma enc1_decode c b t :
  enc1 c = Some b -> utf8_decode (b ++ t) = ocons c (utf8_decode t).
Proof.
  unfold enc1.
  destruct (c <? 128) eqn:E1; [intros H; injection H as <-; simpl; rewrite E1; auto|].
  destruct (c <? 2048) eqn:E2.
  { intros H; injection H as <-. cbn [app].
    cbn [utf8_decode].
    replace (192 + c / 64 <? 128) with false by lia.
    replace (lead2 (192 + c / 64)) with true by (unfold lead2; lia).
    replace (is_cont (128 + c mod 64)) with true by (unfold is_cont; lia).
    f_equal. unfold cp2; lia. }
  destruct (is_scalar c) eqn:Es; [simpl negb; cbv iota | discriminate].
  destruct (c <? 65536) eqn:E3.
  { intros H; injection H as <-. cbn [app]. cbn [utf8_decode].
    replace (224 + c / 4096 <? 128) with false by lia.
    replace (lead2 (224 + c / 4096)) with false by (unfold lead2; lia).
    replace (lead3 (224 + c / 4096)) with true by (unfold lead3; lia).
    replace (cont3 (224 + c / 4096) (128 + (c / 64) mod 64)) with true
      by (unfold cont3, is_cont; unfold is_scalar in Es; lia).
    replace (is_cont (128 + c mod 64)) with true by (unfold is_cont; lia).
    simpl andb. cbv iota. f_equal. unfold cp3; lia. }
  intros H; injection H as <-. cbn [app]. cbn [utf8_decode].
  assert (c < 1114112) by (unfold is_scalar in Es; lia).
  replace (240 + c / 262144 <? 128) with false by lia.
  replace (lead2 (240 + c / 262144)) with false by (unfold lead2; lia).
  replace (lead3 (240 + c / 262144)) with false by (unfold lead3; lia).
  replace (lead4 (240 + c / 262144)) with true by (unfold lead4; lia).
  replace (cont4 (240 + c / 262144) (128 + (c / 4096) mod 64)) with true
    by (unfold cont4, is_cont; unfold is_scalar in Es; lia).
  replace (is_cont (128 + (c / 64) mod 64)) with true by (unfold is_cont; lia).
  replace (is_cont (128 + c mod 64)) with true by (unfold is_cont; lia).
  simpl andb. cbv iota. f_equal. unfold cp4; lia.
Qed.

Lemma enc1_replace c b t :
  enc1 c = Some b -> utf8_replace (b ++ t) = c :: utf8_replace t.
Proof.
  unfold enc1.
  destruct (c <? 128) eqn:E1; [intros H; injection H as <-; simpl; rewrite E1; auto|].
  destruct (c <? 2048) eqn:E2.
  { intros H; injection H as <-. cbn [app].
    cbn [utf8_replace].
    replace (192 + c / 64 <? 128) with false by lia.
    replace (lead2 (192 + c / 64)) with true by (unfold lead2; lia).
    replace (is_cont (128 + c mod 64)) with true by (unfold is_cont; lia).
    f_equal. unfold cp2; lia. }
  destruct (is_scalar c) eqn:Es; [simpl negb; cbv iota | discriminate].
  destruct (c <? 65536) eqn:E3.
  { intros H; injection H as <-. cbn [app]. cbn [utf8_replace].
    replace (224 + c / 4096 <? 128) with false by lia.
    replace (lead2 (224 + c / 4096)) with false by (unfold lead2; lia).
    replace (lead3 (224 + c / 4096)) with true by (unfold lead3; lia).
    replace (cont3 (224 + c / 4096) (128 + (c / 64) mod 64)) with true
      by (unfold cont3, is_cont; unfold is_scalar in Es; lia).
    replace (is_cont (128 + c mod 64)) with true by (unfold is_cont; lia).
    simpl andb. cbv iota. f_equal. unfold cp3; lia. }
  intros H; injection H as <-. cbn [app]. cbn [utf8_replace].
  assert (c < 1114112) by (unfold is_scalar in Es; lia).
  replace (240 + c / 262144 <? 128) with false by lia.
  replace (lead2 (240 + c / 262144)) with false by (unfold lead2; lia).
  replace (lead3 (240 + c / 262144)) with false by (unfold lead3; lia).
  replace (lead4 (240 + c / 262144)) with true by (unfold lead4; lia).
  replace (cont4 (240 + c / 262144) (128 + (c / 4096) mod 64)) with true
    by (unfold cont4, is_cont; unfold is_scalar in Es; lia).
  replace (is_cont (128 + (c / 64) mod 64)) with true by (unfold is_cont; lia).
  replace (is_cont (128 + c mod 64)) with true by (unfold is_cont; lia).
  f_equal. unfold cp4; lia.
Qed.

Lemma enc1_inv c b : enc1 c = Some b -> is_scalar c = true /\ bytes_ok b /\ b <> [].
Proof.
  unfold enc1, bytes_ok. intros H.
  assert (Hs : is_scalar c = true).
  { destruct (c <? 128) eqn:E1; [unfold is_scalar; lia|].
    destruct (c <? 2048) eqn:E2; [unfold is_scalar; lia|].
    destruct (is_scalar c); auto; discriminate. }
  split; auto. rewrite Hs in H; simpl in H. unfold is_scalar in Hs.
  destruct (c <? 128) eqn:E1; [injection H as <-; split; [repeat constructor; lia|congruence]|].
  destruct (c <? 2048) eqn:E2; [injection H as <-; split; [repeat constructor; lia|congruence]|].
  destruct (c <? 65536) eqn:E3; injection H as <-; (split; [repeat constructor; lia|congruence]).
Qed.

Lemma utf8_encode_scalar s : scalar_str s -> exists b, utf8_encode s = Ok b.
Proof.
  induction 1 as [|c s Hc Hs [b IH]]; simpl; eauto.
  destruct (enc1_scalar c Hc) as [x ->]. rewrite IH; simpl; eauto.
Qed.
Lemma utf8_encode_ok s b : utf8_encode s = Ok b -> scalar_str s /\ bytes_ok b.
Proof.
  revert b; induction s as [|c s IH]; simpl; intros b H.
  - injection H as <-; split; constructor.
  - destruct (enc1 c) as [x|] eqn:E; [|discriminate].
    destruct (utf8_encode s) as [t|]; simpl in H; [|discriminate]. injection H as <-.
    destruct (IH _ eq_refl). apply enc1_inv in E as (?&?&?).
    split; [constructor; auto | apply Forall_app; auto].
Qed.
Lemma utf8_encode_err s e : utf8_encode s = Err e -> e = UnicodeEncodeError.
Proof.
  induction s as [|c s IH]; simpl; [discriminate|].
  destruct (enc1 c); [|congruence]. destruct (utf8_encode s); simpl; auto; discriminate.
Qed.
Lemma utf8_decode_encode_app s b t :
  utf8_encode s = Ok b -> utf8_decode (b ++ t) = match utf8_decode t with Some u => Some (s ++ u) | None => None end.
Proof.
  revert b; induction s as [|c s IH]; simpl; intros b H.
  - injection H as <-; simpl. destruct (utf8_decode t); auto.
  - destruct (enc1 c) as [x|] eqn:E; [|discriminate].
    destruct (utf8_encode s) as [y|]; simpl in H; [|discriminate]. injection H as <-.
    rewrite <- app_assoc, (enc1_decode _ _ _ E), (IH _ eq_refl).
    destruct (utf8_decode t); auto.
Qed.
Lemma utf8_decode_encode s b : utf8_encode s = Ok b -> utf8_decode b = Some s.
Proof.
  intros H. rewrite <- (app_nil_r b), (utf8_decode_encode_app _ _ [] H). simpl. rewrite app_nil_r; auto.
Qed.
Lemma utf8_replace_encode_app s b t :
  utf8_encode s = Ok b -> utf8_replace (b ++ t) = s ++ utf8_replace t.
Proof.
  revert b; induction s as [|c s IH]; simpl; intros b H.
  - injection H as <-; auto.
  - destruct (enc1 c) as [x|] eqn:E; [|discriminate].
    destruct (utf8_encode s) as [y|]; simpl in H; [|discriminate]. injection H as <-.
    rewrite <- app_assoc, (enc1_replace _ _ _ E), (IH _ eq_refl). auto.
Qed.
Lemma utf8_replace_encode s b : utf8_encode s = Ok b -> utf8_replace b = s.
Proof.
  intros H. rewrite <- (app_nil_r b), (utf8_replace_encode_app _ _ [] H). simpl. rewrite app_nil_r; auto.
Qed.

(** Strict decoding is injective: what is decoded re-encodes to the same bytes. *)
Lemma enc_dec2 b0 b1 : lead2 b0 = true -> is_cont b1 = true -> enc1 (cp2 b0 b1) = Some [b0; b1].
Proof.
  unfold lead2, is_cont, cp2, enc1; intros.
  replace ((b0 - 192) * 64 + (b1 - 128) <? 128) with false by lia.
  replace ((b0 - 192) * 64 + (b1 - 128) <? 2048) with true by lia.
  repeat f_equal; lia.
Qed.
Lemma enc_dec3 b0 b1 b2 : lead3 b0 = true -> cont3 b0 b1 = true -> is_cont b2 = true ->
  enc1 (cp3 b0 b1 b2) = Some [b0; b1; b2].
Proof.
  unfold lead3, cont3, is_cont, cp3, enc1, is_scalar; intros.
  set (c := (b0 - 224) * 4096 + (b1 - 128) * 64 + (b2 - 128)).
  assert (2048 <= c < 65536 /\ (c < 55296 \/ 57344 <= c)) by (subst c; lia).
  replace (c <? 128) with false by lia.
  replace (c <? 2048) with false by lia.
  replace (negb ((c <? 55296) || (57344 <=? c) && (c <? 1114112))) with false by lia.
  replace (c <? 65536) with true by lia.
  assert (224 + c / 4096 = b0) as -> by (subst c; lia).
  assert (128 + (c / 64) mod 64 = b1) as -> by (subst c; lia).
  assert (128 + c mod 64 = b2) as -> by (subst c; lia). auto.
Qed.
Lemma enc_dec4 b0 b1 b2 b3 : lead4 b0 = true -> cont4 b0 b1 = true -> is_cont b2 = true -> is_cont b3 = true ->
  enc1 (cp4 b0 b1 b2 b3) = Some [b0; b1; b2; b3].
Proof.
  unfold lead4, cont4, is_cont, cp4, enc1, is_scalar; intros.
  set (c := (b0 - 240) * 262144 + (b1 - 128) * 4096 + (b2 - 128) * 64 + (b3 - 128)).
  assert (65536 <= c < 1114112) by (subst c; lia).
  replace (c <? 128) with false by lia.
  replace (c <? 2048) with false by lia.
  replace (negb ((c <? 55296) || (57344 <=? c) && (c <? 1114112))) with false by lia.
  replace (c <? 65536) with false by lia.
  assert (240 + c / 262144 = b0) as -> by (subst c; lia).
  assert (128 + (c / 4096) mod 64 = b1) as -> by (subst c; lia).
  assert (128 + (c / 64) mod 64 = b2) as -> by (subst c; lia).
  assert (128 + c mod 64 = b3) as -> by (subst c; lia). auto.
Qed.

Lemma enc1_ascii c : c < 128 -> enc1 c = Some [c].
Proof. intros; unfold enc1. replace (c <? 128) with true by lia; auto. Qed.

Lemma ocons_some {A} (x : A) o l : ocons x o = Some l -> exists l', o = Some l' /\ l = x :: l'.
Proof. destruct o; simpl; intros H; [injection H as <-; eauto | discriminate]. Qed.

Lemma utf8_encode_decode b s : utf8_decode b = Some s -> utf8_encode s = Ok b.
Proof.
  remember (length b) as n eqn:Hn.
  revert b Hn s; induction n as [n IH] using (well_founded_induction PeanoNat.Nat.lt_wf_0).
  intros b -> s.
  assert (K : forall t, (length t < length b)%nat -> forall u, utf8_decode t = Some u -> utf8_encode u = Ok t)
    by (intros; eapply IH; eauto).
  clear IH. destruct b as [|b0 t0]; [simpl; intros H; injection H as <-; auto|].
  cbn [utf8_decode].
  destruct (b0 <? 128) eqn:E0.
  { intros H; apply ocons_some in H as (l & H & ->). apply K in H; [|simpl; lia].
    simpl. rewrite enc1_ascii by lia. rewrite H; auto. }
  destruct t0 as [|b1 t1]; [discriminate|].
  destruct (lead2 b0) eqn:E2.
  { destruct (is_cont b1) eqn:C1; [|discriminate].
    intros H; apply ocons_some in H as (l & H & ->). apply K in H; [|simpl; lia].
    simpl. rewrite enc_dec2, H; auto. }
  destruct t1 as [|b2 t2]; [discriminate|].
  destruct (lead3 b0) eqn:E3.
  { destruct (cont3 b0 b1 && is_cont b2) eqn:C1; [|discriminate]. bd.
    intros H1; apply ocons_some in H1 as (l & H1 & ->). apply K in H1; [|simpl; lia].
    simpl. rewrite enc_dec3, H1; auto. }
  destruct t2 as [|b3 t3]; [discriminate|].
  destruct (lead4 b0) eqn:E4; [|discriminate].
  destruct (cont4 b0 b1 && is_cont b2 && is_cont b3) eqn:C1; [|discriminate]. bd.
  intros H2; apply ocons_some in H2 as (l & H2 & ->). apply K in H2; [|simpl; lia].
  simpl. rewrite enc_dec4, H2; auto.
Qed.

(** ASCII text is its own encoding. *)
Lemma utf8_encode_ascii s : Forall (fun c => c < 128) s -> utf8_encode s = Ok s.
Proof.
  induction 1 as [|c s Hc Hs IH]; simpl; auto. rewrite enc1_ascii, IH; auto.
Qed.
Lemma utf8_decode_ascii s : Forall (fun c => c < 128) s -> utf8_decode s = Some s.
Proof. intros. apply utf8_decode_encode, utf8_encode_ascii; auto. Qed.
Lemma utf8_encode_app s t b c : utf8_encode s = Ok b -> utf8_encode t = Ok c -> utf8_encode (s ++ t) = Ok (b ++ c).
Proof.
  revert b; induction s as [|x s IH]; simpl; intros b H1 H2.
  - injection H1 as <-; auto.
  - destruct (enc1 x); [|discriminate]. destruct (utf8_encode s); simpl in *; [|discriminate].
    injection H1 as <-. rewrite (IH _ eq_refl H2). simpl. rewrite app_assoc; auto.
Qed.
Lemma utf8_encode_inj s t b : utf8_encode s = Ok b -> utf8_encode t = Ok b -> s = t.
Proof. intros H1 H2. apply utf8_decode_encode in H1, H2. congruence. Qed.
Lemma scalar_app s t : scalar_str (s ++ t) <-> scalar_str s /\ scalar_str t.
Proof. apply Forall_app. Qed.
Lemma utf8_encode_total s : scalar_str s <-> exists b, utf8_encode s = Ok b.
Proof. split; [apply utf8_encode_scalar | intros [b H]; apply utf8_encode_ok in H; tauto]. Qed.
