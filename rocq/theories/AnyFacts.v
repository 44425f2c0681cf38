(** The conversion helpers on every argument: lemmas for C152-C155. *)
From Coq Require Import String Ascii List NArith ZArith Bool Lia ZifyBool ZifyNat ZifyN.
From Verif Require Import Base BaseFacts SpecPy PyFacts SpecCodec Utf8 Utf8Facts Base64 Base64Facts Json JsonFacts Webtools WebtoolsFacts SpecReaders ReaderFacts ReadB64Facts
  HeaderFacts ReadJwsFacts DecFacts SpecUrl UrlWriteFacts WebAny SpecAny.
Import ListNotations.
Open Scope N_scope.

Definition octets_arg (a : parg) : Prop := forall b, a = ABytes b -> bytes_ok b.

Section Any.
Variable float_text : str -> str.
Notation text_of := (text_of float_text).
Notation bytes_for := (bytes_for float_text).

Lemma any_text_iff v t : any_text float_text v = Some t <-> text_of (AVal v) t.
Proof.
  split.
  - destruct v as [|[]|z|l|s|l|d]; cbn; intros [= <-]; first [apply tx_float|apply tx_shown]; [apply sh_true|apply sh_false|apply sh_int; apply (proj2 (dec_iff z _) eq_refl)|apply sh_str].
  - intros H. inversion H as [v' t' S|l]; subst; [|reflexivity]. inversion S; subst; cbn; auto. f_equal. symmetry. apply dec_iff. auto.
Qed.
Lemma any_text_none v : any_text float_text v = None <-> v = PNone \/ collection (AVal v).
Proof.
  split.
  - destruct v; cbn; try discriminate; auto; intros _; right; constructor.
  - intros [->|H]; [reflexivity|]. inversion H; reflexivity.
Qed.
Lemma bytes_total a : bytes_for a (to_bytes_any float_text a).
Proof.
  destruct a as [b|v]; [constructor|]. unfold to_bytes_any.
  destruct (any_text float_text v) as [t|] eqn:E.
  - assert (H : bytes_for (AVal v) (let! b := utf8_encode t in Ok (Some b))).
    { apply any_text_iff in E. rewrite utf8_encode_rfc. destruct (rfc3629_str t) eqn:Er; cbn; [eapply by_text|eapply by_surrogate]; eauto. }
    destruct v; auto. discriminate.
  - apply any_text_none in E as [->|E]; [constructor|]. inversion E; subst; apply by_collection; auto.
Qed.
Lemma bytes_fun a r : bytes_for a r -> to_bytes_any float_text a = r.
Proof.
  intros H. inversion H as [b|  |a' t b T R|a' t T R|a' C]; subst; auto.
  - inversion T as [v t' S|l]; subst; apply any_text_iff in T; unfold to_bytes_any; rewrite T; cbn [rbind]; rewrite utf8_encode_rfc, R; cbn; [|reflexivity].
    destruct v; auto. discriminate.
  - inversion T as [v t' S|l]; subst; apply any_text_iff in T; unfold to_bytes_any; rewrite T; cbn [rbind]; rewrite utf8_encode_rfc, R; cbn; [|reflexivity].
    destruct v; auto. discriminate.
  - inversion C; reflexivity.
Qed.
Theorem bytes_iff a r : to_bytes_any float_text a = r <-> bytes_for a r.
Proof. split; [intros <-; apply bytes_total|apply bytes_fun]. Qed.

Lemma string_total a : octets_arg a -> string_for a (to_string_any a).
Proof.
  intros Ha. destruct a as [b|v].
  - cbn. destruct p_to_string as [_ H]. destruct (H b (Ha b eq_refl)) as [(s & Hs & ->)|(Hs & -> & _)]; [apply sf_utf8|apply sf_octets]; auto.
  - destruct v as [|[]|z|l|s|l|d]; cbn; first [apply sf_number; econstructor; constructor|constructor; constructor].
Qed.
Lemma string_fun a r : octets_arg a -> string_for a r -> to_string_any a = r.
Proof.
  intros Ha H. inversion H as [s| |b s Hs|b Hs|a' C|a' C]; subst; auto; cbn.
  - do 2 f_equal. apply to_string_to_bytes. unfold to_bytes. apply utf8_rfc, Hs.
  - do 2 f_equal. destruct p_to_string as [_ K]. destruct (K b (Ha b eq_refl)) as [(s & E & _)|(_ & -> & _)]; auto. destruct (Hs s E).
  - inversion C as [v z W|l]; subst; [inversion W; reflexivity|reflexivity].
  - inversion C; reflexivity.
Qed.
Theorem string_any_iff a r : octets_arg a -> (to_string_any a = r <-> string_for a r).
Proof. intros Ha. split; [intros <-; apply string_total|apply string_fun]; auto. Qed.

Lemma to_bytes_octets a b : octets_arg a -> to_bytes_any float_text a = Ok (Some b) -> bytes_ok b.
Proof.
  intros Ha H. destruct a as [b'|v]; [injection H as <-; auto|]. apply bytes_iff in H. inversion H as [| |a' t b' T R| |]; subst.
  apply utf8_rfc in R. eapply utf8_encode_ok; eauto.
Qed.
Theorem encoded_iff a r : octets_arg a -> (base64url_encode_any float_text a = r <-> encoded float_text a r).
Proof.
  intros Ha. unfold base64url_encode_any. split.
  - intros <-. destruct (to_bytes_any float_text a) as [[b|]|e] eqn:E; cbn [rbind].
    + rewrite base64url_encode_rfc by (eapply to_bytes_octets; eauto). apply en_bytes, bytes_iff, E.
    + apply en_none, bytes_iff, E.
    + apply en_error, bytes_iff, E.
  - intros H. inversion H as [a' b B|a' B|a' e B]; subst; apply bytes_iff in B; rewrite B; cbn [rbind]; auto.
    rewrite base64url_encode_rfc by (eapply to_bytes_octets; eauto). reflexivity.
Qed.

Theorem decoded_iff a r : base64url_decode_any a = r <-> decoded a r.
Proof.
  split.
  - intros <-. destruct a as [t|v]; [|constructor]. cbn. destruct (base64url_decode t) as [b|e] eqn:E; [apply de_octets, url_octets_iff, E|].
    apply base64url_decode_err in E as X. subst e. apply de_other. intros b Hb. apply url_octets_iff in Hb. congruence.
  - intros H. inversion H as [t b Hb|t Hn|v]; subst; cbn; auto; [apply url_octets_iff, Hb|].
    destruct (base64url_decode t) as [b|e] eqn:E; [apply url_octets_iff in E; destruct (Hn b E)|]. apply base64url_decode_err in E. congruence.
Qed.

End Any.

(** *** Integers *)
Definition int_outcome (t : bytes) : result (option N) := let! n := b64_to_int_bytes t in Ok (Some n).
Lemma ascii_outcome a t : ascii_of a t -> b64_to_int_any a = int_outcome t.
Proof.
  intros H. inversion H as [t'|t' F]; subst; [reflexivity|]. cbn [b64_to_int_any b64_to_int]. unfold ascii_encode.
  replace (forallb (fun c => c <? 128) t) with true; [reflexivity|]. symmetry. apply forallb_forall. rewrite Forall_forall in F. intros c Hc. apply N.ltb_lt; auto.
Qed.
Lemma outcome_total a t : ascii_of a t -> number_read a (int_outcome t).
Proof.
  intros H. unfold int_outcome, b64_to_int_bytes. destruct (base64url_decode t) as [b|e] eqn:E; cbn [rbind].
  - apply url_octets_iff in E. destruct b as [|x b]; [cbn; eapply nr_empty; eauto|]. rewrite int_of_hex_value by discriminate. eapply nr_value; eauto. discriminate.
  - apply base64url_decode_err in E as X. subst e. eapply nr_other; eauto. intros b Hb. apply url_octets_iff in Hb. congruence.
Qed.
Theorem number_read_iff a r : b64_to_int_any a = r <-> number_read a r.
Proof.
  split.
  - intros <-. destruct a as [t|v]; [exact (outcome_total _ _ (as_bytes t))|].
    destruct v as [|[]|z|l|s|l|d]; cbn [b64_to_int_any b64_to_int];
      first [apply nr_number; econstructor; constructor|apply nr_collection; constructor|apply nr_none|idtac].
    unfold ascii_encode. destruct (forallb _ s) eqn:Ea; cbn [rbind].
    + apply (outcome_total _ s). constructor. rewrite forallb_forall in Ea. apply Forall_forall. intros c Hc. apply N.ltb_lt. auto.
    + assert (exists c, In c s /\ 128 <= c) as (c & Hc & Hl).
      { clear -Ea. induction s as [|c s IH]; [discriminate|]. cbn in Ea. destruct (c <? 128) eqn:E; [|exists c; split; [left; auto|lia]].
        destruct (IH Ea) as (x & H & L). exists x. split; [right; auto|auto]. }
      eapply nr_ascii; eauto.
  - intros H. inversion H as [|a' t b A U Hn|a' t A U|a' t A U|s c Hc Hl|a' C|a' C]; subst; auto.
    + rewrite (ascii_outcome _ _ A). unfold int_outcome, b64_to_int_bytes. apply url_octets_iff in U. rewrite U. cbn [rbind]. rewrite int_of_hex_value by auto. reflexivity.
    + rewrite (ascii_outcome _ _ A). unfold int_outcome, b64_to_int_bytes. apply url_octets_iff in U. rewrite U. reflexivity.
    + rewrite (ascii_outcome _ _ A). unfold int_outcome, b64_to_int_bytes.
      destruct (base64url_decode t) as [b|e] eqn:E; [apply url_octets_iff in E; destruct (U b E)|]. apply base64url_decode_err in E. subst e. reflexivity.
    + cbn [b64_to_int_any b64_to_int]. unfold ascii_encode. destruct (forallb _ s) eqn:Ea; [|reflexivity]. rewrite forallb_forall in Ea. apply Ea in Hc. lia.
    + inversion C as [v z W|l]; subst; [inversion W; reflexivity|reflexivity].
    + inversion C; reflexivity.
Qed.

Lemma lead_value x l : bytes_ok (x :: l) -> x <> 0 -> 256 ^ N.of_nat (length l) <= be_value (x :: l).
Proof.
  intros Hb Hx. unfold be_value. cbn [fold_left]. replace (0 * 256 + x) with x by lia.
  assert (G : forall l a, 1 <= a -> 256 ^ N.of_nat (length l) <= fold_left (fun acc b => acc * 256 + b) l a).
  { clear. intros l. induction l as [|y l IH] using rev_ind; intros a Ha; [cbn; lia|].
    rewrite fold_left_app, app_length. cbn [fold_left length]. replace (N.of_nat (length l + 1)) with (N.succ (N.of_nat (length l))) by lia. rewrite N.pow_succ_r'. specialize (IH a Ha). lia. }
  apply G. lia.
Qed.
Lemma minimal_octets l : bytes_ok l -> firstn 1 l <> [0] -> be_bytes (byte_len (be_value l)) (be_value l) = l.
Proof.
  intros Hb Hl. transitivity (be_bytes (length l) (be_value l)); [|apply be_bytes_value; auto]. f_equal.
  destruct l as [|x l]; [reflexivity|]. assert (Hx : x <> 0) by (cbn in Hl; congruence).
  pose proof (lead_value x l Hb Hx) as L. pose proof (be_value_lt _ Hb) as U. set (n := be_value (x :: l)) in *.
  assert (Hn : n <> 0) by (assert (0 < 256 ^ N.of_nat (length l)) by (apply N.neq_0_lt_0, N.pow_nonzero; lia); lia).
  pose proof (byte_len_min n Hn) as M. pose proof (byte_len_bound n) as B. pose proof (byte_len_pos n Hn) as P.
  assert (256 ^ N.of_nat (length l) < 256 ^ N.of_nat (byte_len n)) as H1 by lia. apply N.pow_lt_mono_r_iff in H1; [|lia].
  assert (256 ^ N.of_nat (byte_len n - 1) < 256 ^ N.of_nat (length (x :: l))) as H2 by lia. apply N.pow_lt_mono_r_iff in H2; [|lia]. cbn [length] in *. lia.
Qed.
Lemma be_bytes_lead n : firstn 1 (be_bytes (byte_len n) n) <> [0].
Proof.
  destruct (N.eq_dec n 0) as [->|Hn]; [cbn; discriminate|]. pose proof (be_bytes_length (byte_len n) n) as L. pose proof (be_value_bytes _ _ (byte_len_bound n)) as V.
  pose proof (be_bytes_ok (byte_len n) n) as O. pose proof (byte_len_min n Hn) as M. destruct (be_bytes (byte_len n) n) as [|x l]; [cbn; discriminate|].
  cbn [firstn]. intros [= ->]. assert (E : be_value (0 :: l) = be_value l) by reflexivity. rewrite E in V. inversion O as [|? ? _ O']; subst. pose proof (be_value_lt l O') as U.
  cbn [length] in L. rewrite <- L in M. replace (S (length l) - 1)%nat with (length l) in M by lia. lia.
Qed.
Lemma int_written v z : whole v z -> number_written (AVal v) (int_to_b64 z).
Proof.
  intros W. unfold int_to_b64. destruct (z <? 0)%Z eqn:E; [eapply nw_negative; eauto; lia|].
  rewrite base64url_encode_rfc by apply be_bytes_ok. eapply nw_whole; eauto; [apply be_bytes_ok| |apply be_bytes_lead].
  rewrite be_value_bytes by apply byte_len_bound. lia.
Qed.
Lemma whole_int v z : whole v z -> int_to_b64_any (AVal v) = int_to_b64 z.
Proof. intros W; inversion W; reflexivity. Qed.
Theorem number_written_iff a r : int_to_b64_any a = r <-> number_written a r.
Proof.
  split.
  - intros <-. destruct a as [b|v]; [apply nw_other; discriminate|].
    destruct v as [|[]|z|l|s|l|d]; cbn [int_to_b64_any]; first [apply int_written; constructor|apply nw_other; intros ? ? [= <-] W; inversion W].
  - intros H. inversion H as [v z l W O V L|v z W Hz|a' Hn]; subst.
    + rewrite (whole_int _ _ W). unfold int_to_b64. replace (Z.of_N (be_value l) <? 0)%Z with false by lia. rewrite N2Z.id, minimal_octets by auto. rewrite base64url_encode_rfc; auto.
    + rewrite (whole_int _ _ W). unfold int_to_b64. replace (z <? 0)%Z with true by lia. reflexivity.
    + destruct a as [b|v]; [reflexivity|]. destruct v as [|[]|z|l|s|l|d]; cbn; auto; exfalso; eapply Hn; eauto; constructor.
Qed.

(** *** JSON *)
Lemma loads_outcome a s : string_for a (Ok (Some s)) -> loaded a (loads s).
Proof.
  intros H. destruct (loads s) as [v|e] eqn:E; [eapply lo_json; eauto; apply loads_iff, E|].
  apply json_or_error in E as [-> K]. eapply lo_other; eauto.
Qed.
Lemma json_any a s : octets_arg a -> string_for a (Ok (Some s)) -> json_loads_any a = loads s.
Proof. intros Ha H. apply string_any_iff in H; auto. destruct a as [b|[]]; cbn in *; try discriminate; injection H as <-; reflexivity. Qed.
Theorem loaded_iff a r : octets_arg a -> (json_loads_any a = r <-> loaded a r).
Proof.
  intros Ha. split.
  - intros <-. destruct (to_string_any a) as [[s|]|e] eqn:E; apply string_any_iff in E as H; auto.
    + rewrite (json_any _ _ Ha H). apply loads_outcome; auto.
    + destruct a as [b|[]]; cbn in *; try discriminate. constructor.
    + destruct a as [b|[]]; cbn in *; try discriminate; injection E as <-; apply lo_type; auto.
  - intros H. inversion H as [a' s v S J|a' s S J| |a' S]; subst.
    + rewrite (json_any _ _ Ha S). apply loads_iff; auto.
    + rewrite (json_any _ _ Ha S). apply json_or_error. split; auto. intros (v & Hv). exact (J v Hv).
    + reflexivity.
    + apply string_any_iff in S; auto. destruct a as [b|[]]; cbn in *; try discriminate; reflexivity.
Qed.

(** *** Tokens *)
Lemma nth_error_ext_list {A} (l m : list A) : (forall i, nth_error l i = nth_error m i) -> l = m.
Proof.
  revert m. induction l as [|x l IH]; intros [|y m] H; auto; try (specialize (H 0%nat); discriminate).
  f_equal; [specialize (H 0%nat); cbn in H; congruence|]. apply IH. intros i. exact (H (S i)).
Qed.
Lemma alphabet_nth i : (i < 64)%nat -> nth_error token_alphabet i = Some (nth i token_alphabet 0).
Proof. intros H. apply nth_error_nth'. exact H. Qed.
Lemma token_whole choose v z : whole v z -> secret_token_any choose (AVal v) = secret_token (map choose (seq 0 (Z.to_nat z))).
Proof. intros W; inversion W; reflexivity. Qed.
Lemma token_size choose v z : (forall i, (choose i < 64)%nat) -> whole v z -> token_made choose (AVal v) (secret_token_any choose (AVal v)).
Proof.
  intros Hc W. rewrite (token_whole _ _ _ W). destruct (Z_le_gt_dec z 0) as [L|L].
  - replace (Z.to_nat z) with O by lia. eapply tm_small; eauto.
  - destruct (Z.to_nat z) as [|n] eqn:E; [lia|]. change (secret_token (map choose (seq 0 (S n)))) with (Ok (map (fun i => nth i token_alphabet 0) (map choose (seq 0 (S n))))).
    apply tm_size with (z := z); [exact W|lia| |].
    + rewrite !map_length, seq_length. lia.
    + intros i Hi. rewrite !map_length, seq_length in Hi. rewrite map_map. change (chars _) with token_alphabet. rewrite alphabet_nth by auto.
      rewrite nth_error_map. rewrite (nth_error_nth' _ 0%nat) by (rewrite seq_length; lia). rewrite seq_nth by lia. reflexivity.
Qed.
Theorem token_made_iff choose a r : (forall i, (choose i < 64)%nat) -> (secret_token_any choose a = r <-> token_made choose a r).
Proof.
  intros Hc. split.
  - intros <-. destruct a as [b|v]; [apply tm_type; discriminate|].
    destruct v as [|[]|z|l|s|l|d]; first [eapply token_size; [exact Hc|constructor]|apply tm_type; intros ? ? [= <-] W; inversion W].
  - intros H. inversion H as [v z t W Hz L T|v z W Hz|a' Hn]; subst.
    + rewrite (token_whole _ _ _ W). rewrite Nat2Z.id. destruct t as [|c t]; [cbn in Hz; lia|].
      assert (E : map (fun i => nth i token_alphabet 0) (map choose (seq 0 (length (c :: t)))) = c :: t).
      { apply nth_error_ext_list. intros i. destruct (Nat.lt_ge_cases i (length (c :: t))) as [Hi|Hi].
        - rewrite T by auto. change (chars _) with token_alphabet. rewrite alphabet_nth by auto. rewrite map_map, nth_error_map, (nth_error_nth' _ 0%nat) by (rewrite seq_length; lia).
          rewrite seq_nth by lia. reflexivity.
        - rewrite (proj2 (nth_error_None (c :: t) i)) by lia. apply nth_error_None. rewrite !map_length, seq_length. lia. }
      unfold secret_token. rewrite E. destruct (map choose _) eqn:Em; [discriminate|reflexivity].
    + rewrite (token_whole _ _ _ W). replace (Z.to_nat z) with O by lia. reflexivity.
    + destruct a as [b|v]; [reflexivity|]. destruct v as [|[]|z|l|s|l|d]; cbn; auto; exfalso; eapply Hn; eauto; constructor.
Qed.

(** *** Conversions there and back *)
Lemma text_back ft a t b : text_of ft a t -> to_bytes_any ft a = Ok (Some b) -> to_string_any (ABytes b) = Ok (Some t).
Proof.
  intros T H. inversion T as [v t' S|l]; subst; apply any_text_iff in T; unfold to_bytes_any in H; rewrite T in H.
  - assert (K : (let! b := utf8_encode t in Ok (Some b)) = Ok (Some b)) by (destruct v; auto; discriminate).
    apply BaseFacts.rbind_ok in K as (b' & E & [= <-]). cbn. do 2 f_equal. apply to_string_to_bytes. exact E.
  - apply BaseFacts.rbind_ok in H as (b' & E & [= <-]). cbn. do 2 f_equal. apply to_string_to_bytes. exact E.
Qed.
Lemma encode_back ft a b t : octets_arg a -> to_bytes_any ft a = Ok (Some b) -> base64url_encode_any ft a = Ok t -> base64url_decode_any (ABytes t) = Ok b.
Proof.
  intros Ha H E. unfold base64url_encode_any in E. rewrite H in E. cbn [rbind] in E. injection E as <-. cbn. apply base64url_roundtrip. eapply to_bytes_octets; eauto.
Qed.
Lemma number_back v z t : whole v z -> (0 < z)%Z -> int_to_b64_any (AVal v) = Ok t ->
  b64_to_int_any (ABytes t) = Ok (Some (Z.to_N z)) /\ b64_to_int_any (AVal (PStr t)) = Ok (Some (Z.to_N z)).
Proof.
  intros W Hz H. rewrite (whole_int _ _ W) in H. destruct (p_int_roundtrip z Hz) as (l & b & H1 & _ & _ & _ & _ & H2 & H3).
  rewrite H1 in H. injection H as <-. cbn [b64_to_int_any]. rewrite H2. split; [reflexivity|exact H3].
Qed.
Lemma json_back v b ft : json_wf v = true -> to_bytes_any ft (AVal (PStr (json_dumps v))) = Ok (Some b) ->
  json_loads_any (ABytes b) = Ok v /\ json_loads_any (AVal (PStr (json_dumps v))) = Ok v.
Proof.
  intros Hw H. cbn in H. apply BaseFacts.rbind_ok in H as (b' & E & [= <-]). split; [exact (p_json_bytes _ _ Hw E)|exact (loads_dumps _ Hw)].
Qed.
Lemma takes_both ft a b : ~ number a -> to_bytes_any ft a = Ok (Some b) -> exists s, to_string_any a = Ok (Some s).
Proof.
  intros Hn H. destruct a as [b'|v]; [cbn; eauto|]. destruct v as [|[]|z|l|s|l|d]; cbn in *; try discriminate; eauto; destruct Hn; econstructor; constructor.
Qed.
Lemma int_errors a e : b64_to_int_any a = Err e -> In e [TypeError; ValueError; BinasciiError; UnicodeEncodeError] /\
  (e = TypeError <-> number a \/ collection a).
Proof.
  intros H. assert (T : number a \/ collection a -> b64_to_int_any a = Err TypeError).
  { intros [C|C]; apply number_read_iff; [apply nr_number|apply nr_collection]; exact C. }
  split; [|split; [|intros C; apply T in C; congruence]]; apply number_read_iff in H; inversion H; subst; cbn; auto; discriminate.
Qed.
