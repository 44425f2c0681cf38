(** [quote_plus] and the Location header against SpecUrl.v. *)
From Coq Require Import String Ascii List NArith ZArith Bool Lia ZifyBool ZifyNat ZifyN.
From Verif Require Import Base Utf8 Json Url Webtools BaseFacts Utf8Facts UrlFacts WebtoolsFacts SpecCodec SpecReaders FormFacts SpecUrl.
Import ListNotations.
Open Scope N_scope.
Ltac Zify.zify_post_hook ::= Z.div_mod_to_equations.

Lemma upper_hex_eq v : v < 16 -> upper_hex v = HEXDIG v.
Proof. intros H. do 16 (destruct v as [|v] using N.peano_ind; [reflexivity|clear IHv]); lia. Qed.
Lemma unreserved_safe c : In c unreserved <-> always_safe c = true.
Proof.
  split.
  - intros H. revert c H. apply Forall_forall. vm_compute. repeat constructor.
  - intros H. assert (B : (c < 127)%N) by (unfold always_safe in H; lia).
    assert (K : forallb (fun n => implb (always_safe (N.of_nat n)) (inc (N.of_nat n) unreserved)) (seq 0 127) = true) by (vm_compute; reflexivity).
    rewrite forallb_forall in K. specialize (K (N.to_nat c)). rewrite N2Nat.id, H in K. apply inc_In. apply K. apply in_seq. lia.
Qed.
Lemma quote1_pct safe o : o < 256 -> o =? 32 = false -> always_safe o || inc o safe = false -> quote1 safe o = [37; upper_hex (o / 16); upper_hex (o mod 16)].
Proof. intros H E S. unfold quote1. rewrite E, S. rewrite !upper_hex_eq by lia. reflexivity. Qed.
Lemma quoted_enc safe c : (forall x, In x safe -> x < 128) -> ~ In 32 safe ->
  quoted safe c = match enc1 c with Some b => Some (flat_map (quote1 safe) b) | None => None end.
Proof.
  intros Hs H32. unfold quoted. rewrite <- enc1_rfc. destruct (in_dec N.eq_dec c (unreserved ++ safe)) as [H|H].
  - assert (L : c < 128 /\ c <> 32).
    { apply in_app_iff in H as [H|H]; [apply unreserved_safe in H; unfold always_safe in H; lia|]. split; [auto|]. intros ->. auto. }
    destruct L as [L1 L2]. rewrite enc1_ascii by lia. cbn [flat_map]. rewrite app_nil_r. unfold quote1.
    replace (c =? 32) with false by lia. replace (always_safe c || inc c safe) with true; [reflexivity|].
    symmetry. apply orb_true_iff. apply in_app_iff in H as [H|H]; [left; apply unreserved_safe, H|right; apply inc_In, H].
  - assert (S : always_safe c || inc c safe = false).
    { apply orb_false_iff. split; [destruct (always_safe c) eqn:E|destruct (inc c safe) eqn:E]; auto; exfalso; apply H, in_app_iff; [left; apply unreserved_safe, E|right; apply inc_In, E]. }
    destruct (N.eqb_spec c 32) as [->|N32]; [reflexivity|].
    destruct (enc1 c) as [b|] eqn:E; [|reflexivity]. cbn [option_map]. f_equal.
    destruct (c <? 128) eqn:Ec.
    + rewrite enc1_ascii in E by lia. injection E as <-. cbn [flat_map]. rewrite !app_nil_r. rewrite (quote1_pct safe c); [reflexivity|lia|lia|exact S].
    + assert (K : Forall (fun o => 128 <= o < 256) b) by (pose proof (enc1_high _ _ E ltac:(lia)) as K1; pose proof (enc1_inv _ _ E) as (_ & K2 & _); clear -K1 K2; induction b as [|o b IH]; constructor; inversion K1; inversion K2; subst; auto; lia).
      clear -K Hs. induction K as [|o b Ho Hb IH]; cbn [flat_map]; [reflexivity|]. rewrite IH. f_equal. symmetry. apply quote1_pct; [lia|lia|].
      apply orb_false_iff. split; [unfold always_safe; lia|]. destruct (inc o safe) eqn:E; auto. apply inc_In, Hs in E. lia.
Qed.
Lemma quoted_iff safe s t : (forall x, In x safe -> x < 128) -> ~ In 32 safe -> (quote_plus safe s = Ok t <-> quoted_text safe s t).
Proof.
  intros Hs H32. unfold quote_plus. split.
  - revert t. induction s as [|c s IH]; intros t H; cbn [utf8_encode] in H; [injection H as <-; constructor|].
    destruct (enc1 c) as [b|] eqn:E; [|discriminate]. destruct (utf8_encode s) as [b'|]; [|discriminate]. cbn [rbind] in *. injection H as <-.
    rewrite flat_map_app. apply qt_cons; [rewrite quoted_enc, E by auto; reflexivity|auto].
  - induction 1 as [|c w s t Hc Ht IH]; [reflexivity|]. rewrite quoted_enc in Hc by auto. cbn [utf8_encode]. destruct (enc1 c) as [b|]; [|discriminate].
    injection Hc as <-. destruct (utf8_encode s) as [b'|]; [|discriminate]. cbn [rbind] in *. injection IH as <-. rewrite flat_map_app. reflexivity.
Qed.
Lemma location_iff u l : location u = Ok l <-> header_text u l.
Proof.
  apply (quoted_iff (chars ":/%#?&=@[]!$&'()*+,;")).
  - apply Forall_forall. vm_compute. repeat constructor.
  - vm_compute. intuition discriminate.
Qed.
Lemma quote_err safe s e : quote_plus safe s = Err e -> e = UnicodeEncodeError.
Proof. unfold quote_plus. destruct (utf8_encode s) eqn:E; cbn [rbind]; [discriminate|]. intros [= <-]. eapply utf8_encode_err; eauto. Qed.
Lemma plain_iff s t : quote_plus [] s = Ok t <-> quoted_text [] s t.
Proof. apply quoted_iff; [intros x []|intros []]. Qed.
Lemma items_nil r l : urlencode_items r = Ok l -> l = [] -> r = [].
Proof. destruct r as [|[k v] r]; auto. cbn [urlencode_items]. intros H ->. apply BaseFacts.rbind_ok in H as (a & _ & H). apply BaseFacts.rbind_ok in H as (b & _ & H). apply BaseFacts.rbind_ok in H as (c & _ & H). discriminate. Qed.
Lemma items_cons k v k' v' r : quote_plus [] k = Ok k' -> quote_plus [] v = Ok v' ->
  urlencode_items ((k, v) :: r) = let! t := urlencode_items r in Ok ((k' ++ 61 :: v') :: t).
Proof. intros Hk Hv. cbn [urlencode_items]. rewrite Hk, Hv. reflexivity. Qed.
Lemma query_iff l q : urlencode_ l = Ok q <-> query_text l q.
Proof.
  unfold urlencode_. split.
  - revert q. induction l as [|[k v] l IH]; intros q H; [injection H as <-; constructor|]. cbn [urlencode_items] in H.
    destruct (quote_plus [] k) as [k'|] eqn:Ek; [|discriminate]. destruct (quote_plus [] v) as [v'|] eqn:Ev; [|discriminate]. apply plain_iff in Ek, Ev. cbn [rbind] in H.
    destruct (urlencode_items l) as [ts|] eqn:El; [|discriminate]. cbn [rbind] in *. injection H as <-. specialize (IH _ eq_refl).
    destruct ts as [|t ts].
    + rewrite (items_nil _ _ El eq_refl). cbn [join]. apply qy_one; auto.
    + destruct l as [|i l]; [discriminate|]. rewrite <- app_assoc. cbn [app]. apply qy_more; auto.
  - induction 1 as [|k k' v v' Hk Hv|k k' v v' i r t Hk Hv Hr IH]; [reflexivity| |]; apply plain_iff in Hk, Hv.
    + cbn [urlencode_items]. rewrite Hk, Hv. reflexivity.
    + rewrite (items_cons _ _ _ _ _ Hk Hv). destruct (urlencode_items (i :: r)) as [ts|] eqn:E; [|discriminate]. cbn [rbind] in *. injection IH as <-.
      destruct ts as [|x ts]; [apply items_nil in E; [discriminate|auto]|]. cbn [join app]. rewrite <- app_assoc. reflexivity.
Qed.
