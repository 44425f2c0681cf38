(** Forms and lists of words: the readers of the model read the texts of SpecReaders.v. *)
From Coq Require Import String Ascii List NArith ZArith Bool Lia Arith.
From Coq Require Import ZifyBool ZifyNat ZifyN.
From Verif Require Import Base BaseFacts Utf8 Utf8Facts Json Url UrlFacts Webtools WebtoolsFacts OAuth SpecCodec SpecReaders ReaderFacts.
Import ListNotations.
Open Scope N_scope.
Ltac Zify.zify_post_hook ::= Z.div_mod_to_equations.

(** ** Forms *)
Lemma hex_char a x : In (a, x) hex_digits -> (48 <= a <= 57 \/ 97 <= a <= 102 \/ 65 <= a <= 70) /\ x < 16.
Proof.
  intros H. assert (F : forallb (fun p => (((48 <=? fst p) && (fst p <=? 57)) || ((97 <=? fst p) && (fst p <=? 102)) || ((65 <=? fst p) && (fst p <=? 70))) && (snd p <? 16)) hex_digits = true) by (vm_compute; reflexivity).
  rewrite forallb_forall in F. apply F in H. cbn [fst snd] in H. lia.
Qed.
Lemma percent_unquote t o r : percent t o -> unquote_bytes (map plus_sp t ++ r) = o :: unquote_bytes r.
Proof.
  intros (a & b & x & y & -> & Ha & Hb & ->). pose proof (hex_char _ _ Ha) as [Ca _]. pose proof (hex_char _ _ Hb) as [Cb _].
  cbn [map app]. assert (plus_sp a = a) as -> by (unfold plus_sp; replace (a =? 43) with false by lia; reflexivity).
  assert (plus_sp b = b) as -> by (unfold plus_sp; replace (b =? 43) with false by lia; reflexivity).
  change (plus_sp 37) with 37. cbn [unquote_bytes]. change (37 =? 37) with true. cbv iota. apply hex_in in Ha, Hb. rewrite Ha, Hb. f_equal. lia.
Qed.
Lemma percents_unquote t os r : percents t os -> unquote_bytes (map plus_sp t ++ r) = os ++ unquote_bytes r.
Proof. induction 1 as [|t o p os H Hp IH]; cbn [app map]; auto. rewrite map_app, <- app_assoc, (percent_unquote _ _ _ H), IH. reflexivity. Qed.
Definition form_char (c : N) : Prop := c < 128 /\ c <> 38 /\ c <> 61.
Lemma percents_chars t os : percents t os -> Forall form_char t.
Proof.
  induction 1 as [|t o p os (a & b & x & y & -> & Ha & Hb & _) Hp IH]; [constructor|]. apply hex_char in Ha, Hb.
  cbn [app]. unfold form_char. repeat (constructor; [split; lia|]). exact IH.
Qed.
Lemma form_chars t s : form_text t s -> Forall form_char t.
Proof.
  induction 1 as [|t s H IH|c t s Hc Hn H IH|p c os t s Hr Hp H IH]; [constructor| | |].
  - constructor; auto. unfold form_char. lia.
  - constructor; auto. unfold form_char. cbn [In] in Hn. lia.
  - apply Forall_app. split; auto. eapply percents_chars; eauto.
Qed.
Lemma form_read t s : form_text t s -> utf8_replace (unquote_bytes (map plus_sp t)) = s.
Proof.
  induction 1 as [|t s H IH|c t s Hc Hn H IH|p c os t s Hr Hp H IH]; [reflexivity| | |].
  - cbn [map]. change (plus_sp 43) with 32. cbn [unquote_bytes]. change (32 =? 37) with false. cbv iota.
    change (32 :: unquote_bytes (map plus_sp t)) with ([32] ++ unquote_bytes (map plus_sp t)). rewrite (enc1_replace 32) by reflexivity. rewrite IH. reflexivity.
  - cbn [In] in Hn. cbn [map]. assert (plus_sp c = c) as -> by (unfold plus_sp; replace (c =? 43) with false by lia; reflexivity).
    cbn [unquote_bytes]. replace (c =? 37) with false by lia.
    change (c :: unquote_bytes (map plus_sp t)) with ([c] ++ unquote_bytes (map plus_sp t)). rewrite (enc1_replace c) by (apply enc1_ascii; exact Hc). rewrite IH. reflexivity.
  - rewrite map_app, (percents_unquote _ _ _ Hp). rewrite <- enc1_rfc in Hr. rewrite (enc1_replace _ _ _ Hr), IH. reflexivity.
Qed.
Lemma form_unquote t s : form_text t s -> unquote_plus t = s.
Proof.
  intros H. unfold unquote_plus, unquote. change (fun c => if c =? 43 then 32 else c) with plus_sp.
  rewrite unquote_aux_ascii; [apply form_read; exact H|]. apply Forall_map. eapply Forall_impl; [|eapply form_chars; eauto].
  intros c (Hc & _). unfold plus_sp. destruct (c =? 43); lia.
Qed.
Lemma form_not_in t s c : form_text t s -> c = 38 \/ c = 61 -> ~ In c t.
Proof. intros H Hc Hin. apply form_chars in H. rewrite Forall_forall in H. destruct (H c Hin). lia. Qed.
Lemma form_blank v v' : form_text v v' -> (v = [] <-> v' = []).
Proof.
  intros H. split; [|intros ->; inversion H; reflexivity]. intros ->. inversion H as [| | |p c os t s Hr Hp Ht E]; auto.
  apply app_eq_nil in E as [-> ->]. inversion Hp as [Ho|t o r os' Hpc _ E]; subst.
  - rewrite <- enc1_rfc in Hr. apply enc1_inv in Hr as (_ & _ & K). congruence.
  - apply app_eq_nil in E as [-> _]. destruct Hpc as (? & ? & ? & ? & K & _). discriminate.
Qed.
Lemma form_piece n n' v v' : form_text n n' -> form_text v v' -> parse_piece (n ++ 61 :: v) = non_blank [(n', v')].
Proof.
  intros Hn Hv. unfold parse_piece. rewrite split1_app by (eapply form_not_in; eauto). rewrite (form_unquote _ _ Hn), (form_unquote _ _ Hv).
  pose proof (form_blank _ _ Hv) as K. unfold non_blank. cbn [filter snd]. destruct v as [|c v], v' as [|c' v']; auto.
  - destruct K as [K _]. discriminate K. reflexivity.
  - destruct K as [_ K]. discriminate K. reflexivity.
Qed.
Lemma form_qsl t l : form_pairs t l -> parse_qsl t = non_blank l.
Proof.
  unfold parse_qsl. induction 1 as [n n' v v' Hn Hv|n n' v v' r l Hn Hv Hr IH].
  - rewrite split_on_none; [cbn [flat_map]; rewrite app_nil_r; apply form_piece; auto|].
    intros H. apply in_app_iff in H as [H|[H|H]]; [|discriminate|]; revert H; eapply form_not_in; eauto.
  - replace (n ++ 61 :: v ++ 38 :: r) with ((n ++ 61 :: v) ++ 38 :: r) by (rewrite <- app_assoc; reflexivity).
    rewrite split_on_app.
    + cbn [flat_map]. rewrite (form_piece _ _ _ _ Hn Hv), IH. unfold non_blank. cbn [filter snd]. destruct v'; reflexivity.
    + intros H. apply in_app_iff in H as [H|[H|H]]; [|discriminate|]; revert H; eapply form_not_in; eauto.
Qed.
Lemma form_dict t l : form_pairs t l -> urldecode t = merged (non_blank l).
Proof. intros H. unfold urldecode. rewrite (form_qsl _ _ H). apply merged_dict. Qed.

(** What [urlencode_] writes *)
Lemma HEXDIG_in x : x < 16 -> In (HEXDIG x, x) hex_digits.
Proof.
  intros H. assert (F : forallb (fun x => existsb (fun p => (fst p =? HEXDIG x) && (snd p =? x)) hex_digits) (map N.of_nat (seq 0 16)) = true) by (vm_compute; reflexivity).
  rewrite forallb_forall in F. specialize (F x). rewrite existsb_exists in F. destruct F as ([a b] & Hi & E).
  { apply in_map_iff. exists (N.to_nat x). split; [lia|]. apply in_seq. lia. }
  cbn [fst snd] in E. replace (HEXDIG x, x) with (a, b); auto. f_equal; lia.
Qed.
Lemma quote_percent o : o < 256 -> percent [37; HEXDIG (o / 16); HEXDIG (o mod 16)] o.
Proof. intros H. exists (HEXDIG (o / 16)), (HEXDIG (o mod 16)), (o / 16), (o mod 16). split; auto. split; [apply HEXDIG_in; lia|]. split; [apply HEXDIG_in; lia|lia]. Qed.
Lemma quote_percents os : bytes_ok os -> Forall (fun o => 128 <= o) os -> percents (flat_map (quote1 []) os) os.
Proof.
  induction 1 as [|o os Ho H IH]; intros F; [constructor|]. inversion F as [|? ? H1 H2]; subst. cbn [flat_map]. constructor; [|apply IH; auto].
  unfold quote1. replace (o =? 32) with false by lia. replace (always_safe o || inc o []) with false by (unfold always_safe; cbn [inc existsb]; lia). apply quote_percent. exact Ho.
Qed.
Lemma enc1_high c os : enc1 c = Some os -> 128 <= c -> Forall (fun o => 128 <= o) os.
Proof.
  unfold enc1. intros H Hc. replace (c <? 128) with false in H by lia.
  destruct (c <? 2048); [|destruct (negb (is_scalar c)); [discriminate|destruct (c <? 65536)]]; inversion H; subst; repeat constructor; lia.
Qed.
Lemma quote_form s : forall q, quote_plus [] s = Ok q -> form_text q s.
Proof.
  unfold quote_plus. induction s as [|c s IH]; intros q H; cbn [utf8_encode] in H; [inversion H; constructor|].
  destruct (enc1 c) as [os|] eqn:E; [|discriminate]. destruct (utf8_encode s) as [b|] eqn:Es; cbn [rbind] in *; [|discriminate].
  inversion H; subst. rewrite flat_map_app. specialize (IH _ eq_refl).
  destruct (c <? 128) eqn:Ec.
  - rewrite (enc1_ascii c) in E by lia. inversion E; subst os. cbn [flat_map]. rewrite app_nil_r. unfold quote1.
    destruct (N.eqb_spec c 32) as [->|]; [apply ft_space; exact IH|].
    destruct (always_safe c || inc c []) eqn:Es'.
    + apply ft_plain; auto; [lia|]. unfold always_safe in Es'. cbn [inc existsb] in Es'. cbn [In]. lia.
    + apply (ft_percent _ c [c]); auto; [rewrite <- enc1_rfc; apply enc1_ascii; lia|].
      rewrite <- (app_nil_r [37; HEXDIG (c / 16); HEXDIG (c mod 16)]). constructor; [apply quote_percent; lia|constructor].
  - apply (ft_percent _ c os); auto; [rewrite <- enc1_rfc; exact E|]. pose proof (enc1_inv _ _ E) as (_ & K & _).
    apply quote_percents; auto. eapply enc1_high; eauto. lia.
Qed.
Lemma urlencode_form items q : urlencode_ items = Ok q -> items <> [] -> form_pairs q items.
Proof.
  unfold urlencode_. revert q. induction items as [|[k v] items IH]; intros q H Hn; [congruence|]. cbn [urlencode_items] in H.
  destruct (quote_plus [] k) as [k'|] eqn:Ek; cbn [rbind] in H; [|discriminate].
  destruct (quote_plus [] v) as [v'|] eqn:Ev; cbn [rbind] in H; [|discriminate]. apply quote_form in Ek, Ev.
  destruct items as [|i items].
  - cbn [urlencode_items rbind join] in H. inversion H; subst. constructor; auto.
  - destruct (urlencode_items (i :: items)) as [[|x l]|] eqn:El; cbn [rbind] in H, IH; [| |discriminate].
    + cbn [urlencode_items] in El. destruct i as [a b]. destruct (quote_plus [] a); [|discriminate]. cbn [rbind] in El.
      destruct (quote_plus [] b); [|discriminate]. cbn [rbind] in El. destruct (urlencode_items items); discriminate.
    + specialize (IH _ eq_refl ltac:(discriminate)). cbn [join] in H. inversion H; subst. cbn [join] in IH.
      repeat (rewrite <- ?app_assoc; cbn [app]). apply fp_more; auto.
Qed.

(** ** Words *)
Lemma white_spec c : py_space c = true <-> In c white.
Proof. unfold py_space, white. cbn [In]. lia. Qed.
Lemma not_white c : ~ In c white -> py_space c = false.
Proof. intros H. destruct (py_space c) eqn:E; auto. apply white_spec in E. contradiction. Qed.
Local Notation W := (fun c : N => In c white).
Lemma aux_space s : Forall W s -> forall t, words_aux (s ++ t) [] = words_aux t [].
Proof. induction 1 as [|c s Hc H IH]; intros t; auto. cbn [app words_aux]. apply white_spec in Hc. rewrite Hc. apply IH. Qed.
Lemma aux_word w : Forall (fun c => ~ In c white) w -> forall t acc, words_aux (w ++ t) acc = words_aux t (acc ++ w).
Proof.
  induction 1 as [|c w Hc H IH]; intros t acc; cbn [app words_aux]; [rewrite app_nil_r; reflexivity|].
  rewrite not_white by exact Hc. rewrite IH, <- app_assoc. reflexivity.
Qed.
Lemma words_list s l : word_list W s l -> words s = l.
Proof.
  unfold words. induction 1 as [b Hb|b w e Hb Hw Hn He|b w x r l Hb Hw Hn Hx Hr IH Hl].
  - rewrite <- (app_nil_r b), aux_space by auto. reflexivity.
  - rewrite aux_space, aux_word by auto. cbn [app]. destruct e as [|x e].
    + cbn [words_aux]. destruct w; [congruence|reflexivity].
    + inversion He as [|? ? H1 H2]; subst. cbn [words_aux]. apply white_spec in H1. rewrite H1.
      destruct w; [congruence|]. rewrite <- (app_nil_r e), aux_space by auto. reflexivity.
  - rewrite aux_space, aux_word by auto. cbn [app words_aux]. apply white_spec in Hx. rewrite Hx. rewrite IH. destruct w; [congruence|reflexivity].
Qed.
Lemma aux_inv s : forall acc, Forall (fun c => ~ In c white) acc -> exists l, words_aux s acc = l /\ word_list W (acc ++ s) l.
Proof.
  induction s as [|c s IH]; intros acc Ha; cbn [words_aux].
  - exists (match acc with [] => [] | _ => [acc] end). split; auto. destruct acc as [|a acc]; [apply wl_nil; constructor|].
    apply (wl_one _ [] (a :: acc) []); auto; try constructor. discriminate.
  - destruct (py_space c) eqn:E.
    + apply white_spec in E. destruct (IH [] ltac:(constructor)) as (l & Hl & Hw). cbn [app] in Hw. destruct acc as [|a acc].
      * exists l. split; auto. cbn [app]. inversion Hw; subst.
        -- apply wl_nil. constructor; auto.
        -- apply (wl_one _ (c :: b)); auto.
        -- apply (wl_more _ (c :: b)); auto.
      * exists ((a :: acc) :: l). split; [rewrite Hl; reflexivity|]. destruct l as [|w l].
        -- inversion Hw; subst. apply (wl_one _ [] (a :: acc) (c :: s)); auto; try discriminate; constructor; auto.
        -- apply (wl_more _ [] (a :: acc) c s (w :: l)); auto; try discriminate; constructor.
    + destruct (IH (acc ++ [c])) as (l & Hl & Hw).
      { apply Forall_app. split; auto. constructor; auto. intros K. apply white_spec in K. congruence. }
      exists l. split; auto. rewrite <- app_assoc in Hw. exact Hw.
Qed.
Lemma words_iff s l : words s = l <-> word_list W s l.
Proof. split; [|apply words_list]. intros <-. destruct (aux_inv s [] ltac:(constructor)) as (l & E & H). unfold words. rewrite E. exact H. Qed.
