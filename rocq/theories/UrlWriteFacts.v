(** [urlencode] against SpecUrl.v. *)
From Coq Require Import String Ascii List NArith ZArith Bool Lia ZifyBool ZifyNat ZifyN.
From Verif Require Import Base Utf8 Json Url Webtools BaseFacts Utf8Facts UrlFacts WebtoolsFacts SpecCodec SpecReaders ReaderFacts DecFacts FormFacts SpecUrl UrlQuoteFacts.
Import ListNotations.
Open Scope N_scope.
Ltac Zify.zify_post_hook ::= Z.div_mod_to_equations.

Lemma query_err l e : urlencode_ l = Err e -> e = UnicodeEncodeError.
Proof.
  unfold urlencode_. revert e. induction l as [|[k v] l IH]; intros e H; [discriminate|]. cbn [urlencode_items] in H.
  destruct (quote_plus [] k) eqn:Ek; [|injection H as <-; eapply quote_err; eauto]. destruct (quote_plus [] v) eqn:Ev; [|injection H as <-; eapply quote_err; eauto]. cbn [rbind] in H.
  destruct (urlencode_items l) eqn:El; [discriminate|]. injection H as <-. apply IH. reflexivity.
Qed.
Lemma shown_iff v t : v <> PNone -> (str_text v = Ok t <-> shown v t).
Proof.
  intros Hn. split.
  - destruct v as [|[|]|z|s|s|l|d]; try congruence; cbn [str_text]; intros H; try discriminate; injection H as <-; try constructor.
    + exact (proj1 (proj2 (dec_iff z (dec_Z z)) eq_refl)).
    + exact (proj2 (proj2 (dec_iff z (dec_Z z)) eq_refl)).
  - intros [s|z t0 H1 H2| |]; try reflexivity. cbn [str_text]. f_equal. symmetry. apply dec_iff. auto.
Qed.
Lemma shown_items_iff d l : str_items (full d) = Ok l <-> shown_items d l.
Proof.
  split.
  - revert l. induction d as [|[k v] d IH]; intros l H; [injection H as <-; constructor|]. unfold full in H. cbn [filter] in H. fold (full d) in H. cbn [snd] in H.
    destruct (is_none v) eqn:En; cbn [negb] in H.
    + destruct v; try discriminate. apply si_none, IH, H.
    + cbn [str_items] in H. destruct (str_text v) as [t|] eqn:Et; [|discriminate]. cbn [rbind] in H. destruct (str_items (full d)) as [r|]; [|discriminate]. injection H as <-.
      apply si_more; auto. apply shown_iff; auto. intros ->. discriminate.
  - induction 1 as [|k d l H IH|k v t d l Hv H IH]; [reflexivity|exact IH|]. unfold full. cbn [filter]. fold (full d). cbn [snd].
    assert (Hn : v <> PNone) by (intros ->; inversion Hv). replace (is_none v) with false by (destruct v; congruence || reflexivity). cbn [negb str_items].
    apply shown_iff in Hv; auto. rewrite Hv, IH. reflexivity.
Qed.
Lemma text_err v e : str_text v = Err e -> e = Unmodelled /\ ~ simple v.
Proof. destruct v as [|[|]|z|s|s|l|d]; cbn; intros H; try discriminate; injection H as <-; auto. Qed.
Lemma items_err d e : str_items (full d) = Err e -> e = Unmodelled /\ exists k v, In (k, v) d /\ ~ simple v.
Proof.
  induction d as [|[k v] d IH]; [discriminate|]. unfold full. cbn [filter]. fold (full d). cbn [snd].
  destruct (is_none v) eqn:En; cbn [negb].
  - intros H. destruct (IH H) as (E & a & b & Hin & Hs). split; [exact E|]. exists a, b. split; [right; exact Hin|exact Hs].
  - cbn [str_items]. destruct (str_text v) as [t|e'] eqn:Et; cbn [rbind].
    + destruct (str_items (full d)) as [r|e']; cbn [rbind]; [discriminate|]. intros H. injection H as ->. destruct (IH eq_refl) as (E & a & b & Hin & Hs). split; [exact E|]. exists a, b. split; [right; exact Hin|exact Hs].
    + intros [= <-]. destruct (text_err _ _ Et) as [E Hs]. split; [exact E|]. exists k, v. split; [left; reflexivity|exact Hs].
Qed.
Lemma simple_items d l : shown_items d l -> forall k v, In (k, v) d -> simple v.
Proof. induction 1 as [|k d l H IH|k v t d l Hv H IH]; intros a b Hin; [destruct Hin| |]; destruct Hin as [E|Hin]; eauto; injection E as <- <-; [exact I|]. destruct Hv; exact I. Qed.
Lemma has_url (d : pdict) : has (lit "url") d = false <-> forall v, ~ In (chars "url", v) d.
Proof.
  change chars with lit. unfold has. split.
  - destruct (lookup (lit "url") d) eqn:E; [discriminate|]. intros _ v H. apply lookup_None in E. apply E. exact (in_map fst _ _ H).
  - intros H. destruct (lookup (lit "url") d) as [v|] eqn:E; [|reflexivity]. apply lookup_In in E. destruct (H _ E).
Qed.
Theorem urlencode_iff u d r : urlencode u d = Ok r <-> url_with u d r.
Proof.
  unfold urlencode, url_with, FullDict, dupdate. cbn [fold_left]. split.
  - destruct (has (lit "url") d) eqn:Eh; [discriminate|]. intros H. split; [apply has_url, Eh|].
    apply BaseFacts.rbind_ok in H as (l & Hl & H). apply BaseFacts.rbind_ok in H as (q & Hq & H). injection H as <-.
    exists l, q. split; [apply shown_items_iff, Hl|]. split; [apply query_iff, Hq|reflexivity].
  - intros (Hn & l & q & Hl & Hq & ->). apply has_url in Hn. rewrite Hn. apply shown_items_iff in Hl. apply query_iff in Hq. rewrite Hl. cbn [rbind]. rewrite Hq. reflexivity.
Qed.
Theorem urlencode_error_iff u d e : urlencode u d = Err e <->
  (e = TypeError /\ exists v, In (chars "url", v) d) \/
  ((forall v, ~ In (chars "url", v) d) /\
   ((e = Unmodelled /\ exists k v, In (k, v) d /\ ~ simple v) \/
    (e = UnicodeEncodeError /\ (forall k v, In (k, v) d -> simple v) /\ ~ exists r, url_with u d r))).
Proof.
  assert (D : forall e1, urlencode u d = Err e1 ->
    (e1 = TypeError /\ exists v, In (chars "url", v) d) \/
    ((forall v, ~ In (chars "url", v) d) /\
     ((e1 = Unmodelled /\ exists k v, In (k, v) d /\ ~ simple v) \/
      (e1 = UnicodeEncodeError /\ (forall k v, In (k, v) d -> simple v) /\ ~ exists r, url_with u d r)))).
  { intros e1 He. assert (Hno : ~ exists r, url_with u d r) by (intros [r Hr]; apply urlencode_iff in Hr; congruence).
    unfold urlencode, FullDict, dupdate in He. cbn [fold_left] in He. destruct (has (lit "url") d) eqn:Eh.
    - left. injection He as <-. split; [reflexivity|]. unfold has in Eh. destruct (lookup (lit "url") d) as [v|] eqn:E; [|discriminate]. exists v. change chars with lit. apply lookup_In, E.
    - right. split; [apply has_url, Eh|]. destruct (str_items (full d)) as [l|e'] eqn:El; cbn [rbind] in He.
      + right. destruct (urlencode_ l) as [q|e'] eqn:Eq; [discriminate|]. injection He as <-. split; [eapply query_err; eauto|]. split; [|exact Hno]. apply shown_items_iff in El. eapply simple_items; eauto.
      + left. injection He as <-. eapply items_err; eauto. }
  split; [apply D|]. intros H. destruct (urlencode u d) as [r|e1] eqn:E.
  - exfalso. apply urlencode_iff in E. destruct E as (Hn & l & q & Hl & Hq & Hr). destruct H as [(_ & v & Hv)|(_ & [(_ & k & v & Hin & Hs)|(_ & _ & Hno)])].
    + exact (Hn _ Hv).
    + apply Hs. eapply simple_items; eauto.
    + apply Hno. exists r. split; [exact Hn|]. eauto.
  - f_equal. specialize (D _ eq_refl). destruct H as [(-> & v & Hv)|(Hn & H)], D as [(-> & v' & Hv')|(Hn' & D)]; auto; try (exfalso; eapply Hn'; eassumption); try (exfalso; eapply Hn; eassumption).
    destruct H as [(-> & k & v & Hin & Hs)|(-> & Hs & _)], D as [(-> & k' & v' & Hin' & Hs')|(-> & Hs' & _)]; auto; exfalso; eauto.
Qed.
