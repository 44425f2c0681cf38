(** [dumps] against SpecWrite.v. *)
From Coq Require Import String Ascii List NArith ZArith Bool Lia ZifyBool ZifyNat ZifyN.
From Verif Require Import Base BaseFacts Utf8 Utf8Facts Json JsonFacts Webtools SpecCodec WebtoolsFacts SpecReaders ReaderFacts DecFacts SpecWrite.
Import ListNotations.
Open Scope N_scope.
Ltac Zify.zify_post_hook ::= Z.div_mod_to_equations.

Lemma lower_hex_eq v : v < 16 -> lower_hex v = hexdig v.
Proof. intros H. do 16 (destruct v as [|v] using N.peano_ind; [reflexivity|clear IHv]); lia. Qed.
Lemma short_in c : (exists e, In (e, c) escapes) <-> In c [34; 92; 47; 8; 12; 10; 13; 9].
Proof.
  unfold escapes. cbn [In]. split.
  - intros (e & H). repeat (destruct H as [H|H]; [injection H as <- <-; auto 10|]). destruct H.
  - intros H. repeat (destruct H as [<-|H]; [eexists; auto 10|]). destruct H.
Qed.
Lemma esc1_plain c : ~ In c [34; 92; 10; 13; 9; 12; 8] -> esc1 c = if c <? 32 then [92; 117; 48; 48; hexdig (c / 16); hexdig (c mod 16)] else [c].
Proof.
  intros H. unfold esc1. cbn [In] in H.
  do 7 (match goal with |- (if ?c =? ?n then _ else _) = _ => destruct (N.eqb_spec c n) as [E|_]; [exfalso; apply H; rewrite E; auto 10|] end). reflexivity.
Qed.
Lemma char_iff c w : esc1 c = w <-> char_written c w.
Proof.
  split.
  - intros <-. destruct (in_dec N.eq_dec c [34; 92; 10; 13; 9; 12; 8]) as [H|H].
    + cbn [In] in H. repeat (destruct H as [<-|H]; [apply cw_short; [cbn; auto 10|discriminate]|]). destruct H.
    + rewrite esc1_plain by exact H. destruct (N.ltb_spec c 32) as [E|E].
      * rewrite <- !lower_hex_eq by (clear - E; lia). apply cw_control; try (clear - E; lia).
        intros e K. assert (K' : In c [34; 92; 47; 8; 12; 10; 13; 9]) by (apply short_in; eauto). apply H. cbn [In] in *. assert (c <> 47) by (clear - E; lia). intuition.
      * apply cw_plain; auto; intros ->; apply H; cbn; auto.
  - intros [c0 H1 H2 H3|e c0 H1 H2|c0 x y H1 H2 H3 H4 H5].
    + rewrite esc1_plain by (cbn [In]; intros K; repeat (destruct K as [<-|K]; [lia|]); destruct K). destruct (N.ltb_spec c0 32); [lia|reflexivity].
    + unfold escapes in H1. cbn [In] in H1. repeat (destruct H1 as [H1|H1]; [injection H1 as <- <-; first [reflexivity|destruct H2; reflexivity]|]). destruct H1.
    + assert (K : ~ In c0 [34; 92; 10; 13; 9; 12; 8]).
      { intros K. assert (K' : In c0 [34; 92; 47; 8; 12; 10; 13; 9]) by (cbn [In] in *; intuition). apply short_in in K' as (e & K'). exact (H2 e K'). }
      rewrite esc1_plain by exact K. destruct (N.ltb_spec c0 32) as [_|E]; [|exfalso; clear - H1 E; lia]. clear - H3 H4 H5.
      replace (c0 / 16) with x by lia. replace (c0 mod 16) with y by lia. rewrite !lower_hex_eq by assumption. reflexivity.
Qed.
Lemma chars_iff s t : flat_map esc1 s = t <-> chars_written s t.
Proof.
  split.
  - intros <-. induction s as [|c s IH]; cbn [flat_map]; constructor; auto. apply char_iff. reflexivity.
  - induction 1 as [|c w s t Hc H IH]; [reflexivity|]. cbn [flat_map]. apply char_iff in Hc. congruence.
Qed.
Lemma string_iff s t : dumps_str s = t <-> string_written s t.
Proof.
  unfold dumps_str, string_written. split.
  - intros <-. eexists. split; [apply chars_iff; reflexivity|reflexivity].
  - intros (w & H & ->). apply chars_iff in H. rewrite H. reflexivity.
Qed.

Scheme written_m := Minimality for written Sort Prop
  with elements_m := Minimality for elements_written Sort Prop
  with members_m := Minimality for members_written Sort Prop.
Lemma dumps_written v : written v (dumps v).
Proof.
  induction v as [|b|z|s|s|l HF|d HF] using pyval_ind'; cbn [dumps].
  - exact wr_none.
  - destruct b; [exact wr_true|exact wr_false].
  - apply wr_int; apply (proj2 (dec_iff z (dec_Z z)) eq_refl).
  - constructor.
  - constructor. apply string_iff. reflexivity.
  - destruct l as [|v l]; [exact wr_list0|]. apply (wr_list _ (join [44; 32] (map dumps (v :: l)))).
    revert v HF. induction l as [|u l IH]; intros v HF; inversion HF; subst; [apply ew_last; auto|]. apply (ew_more v (dumps v) (u :: l)); auto. apply IH; auto.
  - destruct d as [|[k v] d]; [exact wr_dict0|]. apply (wr_dict _ (join [44; 32] (map (fun kv => dumps_str (fst kv) ++ [58; 32] ++ dumps (snd kv)) ((k, v) :: d)))).
    revert k v HF. induction d as [|[k' u] d IH]; intros k v HF; inversion HF; subst; cbn [fst snd] in *.
    + apply mw_last; auto. apply string_iff. reflexivity.
    + specialize (IH k' u ltac:(auto)). set (f := fun kv : str * pyval => _) in *.
      change (members_written ((k, v) :: (k', u) :: d) ((dumps_str k ++ [58; 32] ++ dumps v) ++ [44; 32] ++ join [44; 32] (map f ((k', u) :: d)))).
      rewrite <- !app_assoc. apply mw_more; auto. apply string_iff. reflexivity.
Qed.
Lemma written_dumps v t : written v t -> dumps v = t.
Proof.
  revert v t. apply (written_m (fun v t => dumps v = t)
    (fun l t => l <> [] /\ join [44; 32] (map dumps l) = t)
    (fun d t => d <> [] /\ join [44; 32] (map (fun kv => dumps_str (fst kv) ++ [58; 32] ++ dumps (snd kv)) d) = t)); try reflexivity.
  - intros z t H1 H2. symmetry. apply dec_iff. auto.
  - intros s t H. apply string_iff. exact H.
  - intros l t _ [_ H]. cbn [dumps]. rewrite H. reflexivity.
  - intros d t _ [_ H]. cbn [dumps]. rewrite H. reflexivity.
  - intros v t _ H. split; [discriminate|]. exact H.
  - intros v t r u _ H _ [Hn IH]. split; [discriminate|]. destruct r as [|x r]; [contradiction|]. cbn [map join] in *. rewrite H, IH. reflexivity.
  - intros k n v t Hk _ H. split; [discriminate|]. apply string_iff in Hk. cbn [map join fst snd]. rewrite H, Hk. reflexivity.
  - intros k n v t r u Hk _ H _ [Hn IH]. split; [discriminate|]. apply string_iff in Hk. destruct r as [|x r]; [contradiction|]. cbn [map join fst snd] in *.
    rewrite Hk, H, IH. rewrite <- !app_assoc. reflexivity.
Qed.
Lemma dumps_iff v t : json_dumps v = t <-> written v t.
Proof. split; [intros <-; apply dumps_written|apply written_dumps]. Qed.
Lemma octets_iff v b : to_bytes (json_dumps v) = Ok b <-> octets_of v b.
Proof.
  unfold octets_of, to_bytes. split.
  - intros H. exists (json_dumps v). split; [apply dumps_iff; reflexivity|]. apply utf8_rfc, H.
  - intros (t & H & Hb). apply dumps_iff in H. rewrite H. apply utf8_rfc, Hb.
Qed.
Lemma octets_all v :
  (forall b, to_bytes (json_dumps v) = Ok b <-> octets_of v b) /\
  (forall e, to_bytes (json_dumps v) = Err e <-> e = UnicodeEncodeError /\ forall b, ~ octets_of v b).
Proof.
  split; [intros b; apply octets_iff|]. intros e. split.
  - intros H. split; [eapply utf8_encode_err; exact H|]. intros b Hb. apply octets_iff in Hb. congruence.
  - intros [-> H]. destruct (to_bytes (json_dumps v)) as [b|e] eqn:E; [apply octets_iff in E; destruct (H b E)|]. f_equal. eapply utf8_encode_err; exact E.
Qed.
