(** Facts about Url.v. *)
From Coq Require Import String Ascii List NArith ZArith Bool Lia ZifyBool ZifyNat ZifyN.
From Verif Require Import Base BaseFacts Utf8 Utf8Facts Json JsonFacts Url Base64Facts.
Import ListNotations.
Open Scope N_scope.
Ltac Zify.zify_post_hook ::= Z.div_mod_to_equations.

(** ** Splitting *)
Lemma split_on_nonempty c s : split_on c s <> [].
Proof. destruct s as [|x s]; simpl; [congruence|]. destruct (x =? c); [congruence|]. destruct (split_on c s); congruence. Qed.
Lemma split_on_none c s : ~ In c s -> split_on c s = [s].
Proof.
  induction s as [|x s IH]; simpl; auto. intros H.
  replace (x =? c) with false by (symmetry; apply N.eqb_neq; tauto). rewrite IH by tauto. auto.
Qed.
Lemma split_on_app c a b : ~ In c a -> split_on c (a ++ c :: b) = a :: split_on c b.
Proof.
  induction a as [|x a IH]; simpl; intros H.
  - rewrite N.eqb_refl; auto.
  - replace (x =? c) with false by (symmetry; apply N.eqb_neq; tauto). rewrite IH by tauto. auto.
Qed.
Lemma split_on_join c l : l <> [] -> Forall (fun s => ~ In c s) l -> split_on c (join [c] l) = l.
Proof.
  induction l as [|x [|y l] IH]; intros Hne HF; [congruence| |].
  - inversion HF; subst. apply split_on_none; auto.
  - inversion HF; subst. change (join [c] (x :: y :: l)) with (x ++ c :: join [c] (y :: l)).
    rewrite split_on_app by auto. rewrite IH; auto. congruence.
Qed.
Lemma join_split_on c s : join [c] (split_on c s) = s.
Proof.
  induction s as [|x s IH]; simpl; auto.
  destruct (N.eqb_spec x c) as [->|].
  - pose proof (split_on_nonempty c s). destruct (split_on c s) as [|h t]; [congruence|].
    change (join [c] ([] :: h :: t)) with (c :: join [c] (h :: t)). congruence.
  - pose proof (split_on_nonempty c s). destruct (split_on c s) as [|h t]; [congruence|].
    destruct t; simpl in *; rewrite IH; auto.
Qed.
Lemma split_on_no_sep c s : Forall (fun p => ~ In c p) (split_on c s).
Proof.
  induction s as [|x s IH]; simpl; [repeat constructor; auto|].
  destruct (N.eqb_spec x c) as [->|Hne]; [constructor; auto|].
  destruct (split_on c s) as [|h t]; [repeat constructor; simpl; tauto|].
  inversion IH; subst. constructor; auto. simpl; intros [H|H]; auto.
Qed.
Lemma split1_app c a b : ~ In c a -> split1 c (a ++ c :: b) = Some (a, b).
Proof.
  induction a as [|x a IH]; simpl; intros H.
  - rewrite N.eqb_refl; auto.
  - replace (x =? c) with false by (symmetry; apply N.eqb_neq; tauto). rewrite IH by tauto. auto.
Qed.
Lemma split1_some c s a b : split1 c s = Some (a, b) -> s = a ++ c :: b /\ ~ In c a.
Proof.
  revert a b; induction s as [|x s IH]; simpl; intros a b H; [discriminate|].
  destruct (N.eqb_spec x c) as [->|Hne].
  - inversion H; subst; simpl; auto.
  - destruct (split1 c s) as [[a' b']|]; [|discriminate]. inversion H; subst.
    destruct (IH _ _ eq_refl) as [-> Hn]. split; auto. simpl. intros [E|E]; auto.
Qed.
Lemma split1_none c s : split1 c s = None <-> ~ In c s.
Proof.
  induction s as [|x s IH]; simpl; [tauto|].
  destruct (N.eqb_spec x c) as [->|Hne].
  - split; [congruence | intros H; exfalso; auto].
  - destruct (split1 c s) as [[a b]|]; split; try congruence.
    + intros H; exfalso. destruct IH as [_ IH]. assert (~ In c s) by tauto. apply IH in H0. congruence.
    + intros _ [E|E]; auto. apply IH in E; auto.
Qed.

(** ** Quoting *)
Lemma quote1_hex b : b < 256 ->
  exists x y, hexval (HEXDIG (b / 16)) = Some x /\ hexval (HEXDIG (b mod 16)) = Some y /\ x * 16 + y = b.
Proof.
  intros H.
  assert (K : (match hexval (HEXDIG (b / 16)), hexval (HEXDIG (b mod 16)) with Some x, Some y => x * 16 + y =? b | _, _ => false end) = true).
  { apply (forall_lt256 (fun b => match hexval (HEXDIG (b / 16)), hexval (HEXDIG (b mod 16)) with Some x, Some y => x * 16 + y =? b | _, _ => false end)); auto. }
  destruct (hexval _), (hexval _); try discriminate. do 2 eexists; repeat split. lia.
Qed.
Lemma HEXDIG_char v : v < 16 -> (48 <= HEXDIG v < 58) \/ (65 <= HEXDIG v < 71).
Proof. intros; unfold HEXDIG. destruct (v <? 10) eqn:E; lia. Qed.

(** Characters a quoted component consists of. *)
Definition quoted_char (safe : list N) (c : N) : bool :=
  always_safe c || inc c safe || (c =? 43) || (c =? 37).
Lemma quoted_char_mono s1 s2 c : incl s1 s2 -> quoted_char s1 c = true -> quoted_char s2 c = true.
Proof.
  unfold quoted_char. intros Hi. rewrite !orb_true_iff, !inc_In. intuition auto.
Qed.
Lemma quote1_chars safe b : b < 256 -> forallb (quoted_char safe) (quote1 safe b) = true.
Proof.
  intros H. unfold quote1. destruct (b =? 32); [unfold quoted_char; simpl; rewrite orb_true_r; reflexivity|].
  destruct (always_safe b || inc b safe) eqn:E; cbn [forallb]; unfold quoted_char.
  - rewrite E; reflexivity.
  - pose proof (HEXDIG_char (b / 16) ltac:(lia)). pose proof (HEXDIG_char (b mod 16) ltac:(lia)).
    replace (always_safe (HEXDIG (b / 16))) with true by (unfold always_safe; lia).
    replace (always_safe (HEXDIG (b mod 16))) with true by (unfold always_safe; lia).
    change (37 =? 37) with true. rewrite orb_true_r. reflexivity.
Qed.
Lemma flat_map_quote_chars safe b : bytes_ok b -> Forall (fun c => quoted_char safe c = true) (flat_map (quote1 safe) b).
Proof.
  induction 1 as [|x b Hx Hb IH]; simpl; [constructor|]. apply Forall_app; split; auto.
  pose proof (quote1_chars safe x Hx) as K. rewrite forallb_forall in K. apply Forall_forall. auto.
Qed.
Lemma quote_plus_chars safe s q : quote_plus safe s = Ok q -> Forall (fun c => quoted_char safe c = true) q.
Proof.
  unfold quote_plus. destruct (utf8_encode s) as [b|] eqn:E; simpl; intros H; inversion H; subst.
  apply flat_map_quote_chars. apply utf8_encode_ok in E; tauto.
Qed.

(** unquote_to_bytes after "+" -> " " inverts quoting with the empty safe set. *)
Definition plus_sp (c : N) : N := if c =? 43 then 32 else c.
Lemma unquote_quote1 b t : b < 256 ->
  unquote_bytes (map plus_sp (quote1 [] b) ++ t) = b :: unquote_bytes t.
Proof.
  intros H. unfold quote1. destruct (N.eqb_spec b 32) as [->|Hsp]; [reflexivity|].
  cbn [inc existsb]. rewrite orb_false_r.
  destruct (always_safe b) eqn:E.
  - cbn [map app]. assert (Hp : plus_sp b = b). { unfold plus_sp. replace (b =? 43) with false; auto. unfold always_safe in E; lia. }
    rewrite Hp. cbn [unquote_bytes]. replace (b =? 37) with false by (unfold always_safe in E; lia). auto.
  - destruct (quote1_hex b H) as (x & y & Hx & Hy & Hb).
    pose proof (HEXDIG_char (b / 16) ltac:(lia)). pose proof (HEXDIG_char (b mod 16) ltac:(lia)).
    cbn [map app].
    assert (plus_sp (HEXDIG (b / 16)) = HEXDIG (b / 16)) as -> by (unfold plus_sp; replace (HEXDIG (b / 16) =? 43) with false by lia; auto).
    assert (plus_sp (HEXDIG (b mod 16)) = HEXDIG (b mod 16)) as -> by (unfold plus_sp; replace (HEXDIG (b mod 16) =? 43) with false by lia; auto).
    change (plus_sp 37) with 37. cbn [unquote_bytes]. change (37 =? 37) with true. cbv iota.
    rewrite Hx, Hy, Hb. auto.
Qed.
Lemma unquote_quote_bytes b : bytes_ok b -> unquote_bytes (map plus_sp (flat_map (quote1 []) b)) = b.
Proof.
  induction 1 as [|x b Hx Hb IH]; simpl; auto. rewrite map_app, unquote_quote1, IH; auto.
Qed.
Lemma unquote_aux_ascii s : Forall (fun c => c < 128) s -> forall acc,
  unquote_aux s acc = utf8_replace (unquote_bytes (acc ++ s)).
Proof.
  induction 1 as [|c s Hc Hs IH]; intros acc; simpl.
  - rewrite app_nil_r; auto.
  - replace (c <? 128) with true by lia. rewrite IH, <- app_assoc. auto.
Qed.
Lemma quoted_ascii c : quoted_char [] c = true -> c < 128.
Proof. unfold quoted_char, always_safe. cbn [inc existsb]. lia. Qed.
Theorem unquote_quote_plus s q : quote_plus [] s = Ok q -> unquote_plus q = s.
Proof.
  intros H. pose proof (quote_plus_chars _ _ _ H) as Hc.
  unfold quote_plus in H. destruct (utf8_encode s) as [b|] eqn:E; simpl in H; inversion H; subst.
  unfold unquote_plus, unquote. change (fun c => if c =? 43 then 32 else c) with plus_sp.
  rewrite unquote_aux_ascii.
  - cbn [app]. rewrite unquote_quote_bytes; [apply utf8_replace_encode; auto | apply utf8_encode_ok in E; tauto].
  - apply Forall_forall. intros x Hx. apply in_map_iff in Hx as (c & <- & Hx).
    rewrite Forall_forall in Hc. apply Hc, quoted_ascii in Hx. unfold plus_sp. destruct (c =? 43); lia.
Qed.
Lemma quote_plus_scalar safe s : scalar_str s -> exists q, quote_plus safe s = Ok q.
Proof. intros H. unfold quote_plus. destruct (utf8_encode_scalar s H) as [b ->]. simpl; eauto. Qed.
Lemma quote_plus_nonempty safe s q : quote_plus safe s = Ok q -> s <> [] -> q <> [].
Proof.
  unfold quote_plus. destruct s as [|c s]; [congruence|]. simpl.
  destruct (enc1 c) as [b|] eqn:E; [|discriminate]. destruct (utf8_encode s); simpl; [|discriminate].
  intros H _; inversion H; subst. apply enc1_inv in E as (_ & _ & Hb). destruct b as [|x b]; [congruence|].
  simpl. unfold quote1. destruct (x =? 32); [discriminate|]. destruct (always_safe x || inc x safe); discriminate.
Qed.
Lemma quoted_no_sep q c : Forall (fun c => quoted_char [] c = true) q -> (c = 38 \/ c = 61 \/ c = 35 \/ c = 63) -> ~ In c q.
Proof.
  intros H Hc Hin. rewrite Forall_forall in H. apply H in Hin.
  unfold quoted_char, always_safe in Hin. cbn [inc existsb] in Hin. lia.
Qed.

Lemma urlencode_items_ok items : Forall (fun kv => scalar_str (fst kv) /\ scalar_str (snd kv)) items ->
  exists l, urlencode_items items = Ok l.
Proof.
  induction 1 as [|[k v] items [Hk Hv] HF [l IH]]; simpl; eauto.
  destruct (quote_plus_scalar [] k Hk) as [k' ->]. destruct (quote_plus_scalar [] v Hv) as [v' ->].
  simpl. rewrite IH. simpl; eauto.
Qed.
Lemma parse_urlencode_items items l :
  urlencode_items items = Ok l -> Forall (fun kv => snd kv <> []) items ->
  Forall (fun p => ~ In 38 p) l /\ flat_map parse_piece l = items /\
  Forall (Forall (fun c => quoted_char [61] c = true)) l.
Proof.
  revert l; induction items as [|[k v] items IH]; simpl; intros l H HF.
  - inversion H; subst; auto.
  - destruct (quote_plus [] k) as [k'|] eqn:Ek; simpl in H; [|discriminate].
    destruct (quote_plus [] v) as [v'|] eqn:Ev; simpl in H; [|discriminate].
    destruct (urlencode_items items) as [t|]; simpl in H; [|discriminate]. inversion H; subst.
    inversion HF as [|? ? Hv HF']; subst. cbn [snd] in Hv.
    destruct (IH _ eq_refl HF') as (I1 & I2 & I3).
    pose proof (quote_plus_chars _ _ _ Ek) as Ck. pose proof (quote_plus_chars _ _ _ Ev) as Cv.
    pose proof (quoted_no_sep k' 38 Ck ltac:(auto)). pose proof (quoted_no_sep v' 38 Cv ltac:(auto)).
    pose proof (quoted_no_sep k' 61 Ck ltac:(auto)).
    repeat split.
    + constructor; auto. rewrite in_app_iff. simpl. intros [?|[?|?]]; auto; discriminate.
    + simpl. unfold parse_piece at 1. rewrite split1_app by auto.
      pose proof (quote_plus_nonempty _ _ _ Ev Hv). destruct v' as [|c v']; [congruence|].
      rewrite (unquote_quote_plus _ _ Ek), (unquote_quote_plus _ _ Ev). cbn [app]. rewrite I2. auto.
    + constructor; auto. apply Forall_app; split; [|constructor; [reflexivity|]].
      * eapply Forall_impl; [|exact Ck]. cbv beta. intros ?; apply quoted_char_mono; intros ? [].
      * eapply Forall_impl; [|exact Cv]. cbv beta. intros ?; apply quoted_char_mono; intros ? [].
Qed.
Lemma parse_qsl_urlencode items q :
  urlencode_ items = Ok q -> Forall (fun kv => snd kv <> []) items -> parse_qsl q = items.
Proof.
  unfold urlencode_. destruct (urlencode_items items) as [l|] eqn:E; simpl; intros H HF; inversion H; subst.
  destruct (parse_urlencode_items _ _ E HF) as (H1 & H2 & _). unfold parse_qsl.
  destruct l as [|p l].
  - simpl in H2. subst. reflexivity.
  - rewrite split_on_join; auto. congruence.
Qed.
Lemma join_chars (P : N -> Prop) sep l : Forall P sep -> Forall (Forall P) l -> Forall P (join sep l).
Proof.
  intros Hs. induction l as [|x [|y l] IH]; intros H; simpl; auto.
  - inversion H; auto.
  - inversion H; subst. apply Forall_app; split; auto. apply Forall_app; split; auto.
Qed.
Lemma urlencode_chars items q : urlencode_ items = Ok q -> Forall (fun c => quoted_char [38; 61] c = true) q.
Proof.
  unfold urlencode_. destruct (urlencode_items items) as [l|] eqn:E; simpl; intros H; inversion H; subst.
  apply join_chars; [repeat constructor|].
  clear H. revert l E; induction items as [|[k v] items IH]; simpl; intros l E.
  - inversion E; constructor.
  - destruct (quote_plus [] k) as [k'|] eqn:Ek; simpl in E; [|discriminate].
    destruct (quote_plus [] v) as [v'|] eqn:Ev; simpl in E; [|discriminate].
    destruct (urlencode_items items) as [t|]; simpl in E; [|discriminate]. inversion E; subst.
    constructor; auto.
    apply quote_plus_chars in Ek, Ev.
    apply Forall_app; split; [|constructor; [reflexivity|]];
    (eapply Forall_impl; [|eassumption]); cbv beta; intros ?; apply quoted_char_mono; intros ? [].
Qed.

(** ** The Location header *)
Definition location_passes (c : N) : bool := (c <? 128) && (always_safe c || inc c location_safe).
Lemma location_chars url l : location url = Ok l ->
  Forall (fun c => 33 <= c <= 126) l.
Proof.
  intros H. apply quote_plus_chars in H. eapply Forall_impl; [|exact H]. cbv beta.
  intros c Hc. unfold quoted_char in Hc.
  apply orb_true_iff in Hc as [Hc|Hc]; [|lia]. apply orb_true_iff in Hc as [Hc|Hc]; [|lia].
  apply orb_true_iff in Hc as [Hc|Hc]; [unfold always_safe in Hc; lia|].
  apply inc_In in Hc. unfold location_safe, lit in Hc. simpl in Hc.
  repeat (destruct Hc as [Hc|Hc]; [subst; lia|]). destruct Hc.
Qed.
Lemma quote_id safe b : Forall (fun c => always_safe c || inc c safe = true) b -> ~ In 32 b -> flat_map (quote1 safe) b = b.
Proof.
  induction 1 as [|c b Hc Hb IH]; simpl; auto. intros Hn.
  unfold quote1. replace (c =? 32) with false by (symmetry; apply N.eqb_neq; intros ->; tauto).
  rewrite Hc. cbn [app]. f_equal; apply IH; tauto.
Qed.
Lemma location_id url : Forall (fun c => always_safe c || inc c location_safe = true) url -> location url = Ok url.
Proof.
  intros H. unfold location, quote_plus.
  assert (Hsmall : forall c, always_safe c || inc c location_safe = true -> 33 <= c < 127).
  { intros c Hc. apply orb_true_iff in Hc as [Hc|Hc]; [unfold always_safe in Hc; lia|].
    apply inc_In in Hc. unfold location_safe, lit in Hc. simpl in Hc.
    repeat (destruct Hc as [Hc|Hc]; [subst; lia|]). destruct Hc. }
  rewrite utf8_encode_ascii.
  - simpl. rewrite quote_id; auto. intros Hin. rewrite Forall_forall in H. apply H, Hsmall in Hin. lia.
  - eapply Forall_impl; [|exact H]. cbv beta. intros c Hc. apply Hsmall in Hc. lia.
Qed.
