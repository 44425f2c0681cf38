(** The Base64 decoder of the model reads the texts of SpecReaders.v. *)
From Coq Require Import String Ascii List NArith ZArith Bool Lia Arith.
From Coq Require Import ZifyBool ZifyNat ZifyN.
From Verif Require Import Base BaseFacts Base64 Base64Facts SpecCodec SpecReaders.
Import ListNotations.
Open Scope N_scope.
Ltac Zify.zify_post_hook ::= Z.div_mod_to_equations.

(** ** Alphabets *)
Lemma value_big al c : forallb (fun p => fst p <? 123) al = true -> 123 <= c -> value_of al c = [].
Proof.
  intros H Hc. unfold value_of. replace (filter (fun p => fst p =? c) al) with (@nil (N * N)); auto.
  induction al as [|[x v] al IH]; cbn [filter forallb fst] in *; auto. apply andb_true_iff in H as [H1 H2].
  replace (x =? c) with false by lia. apply IH. exact H2.
Qed.
Definition opt_list (o : option N) : list N := match o with Some v => [v] | None => [] end.
Definition eql (a b : list N) : bool := if list_eq_dec N.eq_dec a b then true else false.
Lemma eql_eq a b : eql a b = true -> a = b. Proof. unfold eql. destruct (list_eq_dec N.eq_dec a b); congruence. Qed.
Lemma value_std c : value_of std_values c = opt_list (b64val c).
Proof.
  destruct (c <? 256) eqn:E.
  - apply eql_eq. apply (forall_lt256 (fun c => eql (value_of std_values c) (opt_list (b64val c)))); [vm_compute; reflexivity|lia].
  - rewrite value_big by (reflexivity || lia). unfold b64val. repeat match goal with |- context[if ?b then _ else _] => replace b with false by lia end. reflexivity.
Qed.
Lemma value_any c : value_of any_values c = opt_list (b64val (url_to_std c)).
Proof.
  destruct (c <? 256) eqn:E.
  - apply eql_eq. apply (forall_lt256 (fun c => eql (value_of any_values c) (opt_list (b64val (url_to_std c))))); [vm_compute; reflexivity|lia].
  - rewrite value_big by (reflexivity || lia). unfold url_to_std. replace (c =? 45) with false by lia. replace (c =? 95) with false by lia.
    unfold b64val. repeat match goal with |- context[if ?b then _ else _] => replace b with false by lia end. reflexivity.
Qed.
Lemma values_any t : values any_values t = values std_values (map url_to_std t).
Proof.
  unfold values. induction t as [|c t IH]; cbn [flat_map map]; auto. rewrite IH, value_any, value_std. reflexivity.
Qed.

(** ** Bits *)
Definition bitsk (k : nat) (v : N) : list bool := map (fun i => N.testbit v (N.of_nat i)) (rev (seq 0 k)).
Definition eqb2 (a b : list bool) : bool := if list_eq_dec Bool.bool_dec a b then true else false.
Lemma eqb2_eq a b : eqb2 a b = true -> a = b. Proof. unfold eqb2. destruct (list_eq_dec Bool.bool_dec a b); congruence. Qed.
Lemma two64 (P : N -> N -> bool) : forallb (fun a => forallb (P a) (map N.of_nat (seq 0 64))) (map N.of_nat (seq 0 64)) = true ->
  forall a b, a < 64 -> b < 64 -> P a b = true.
Proof.
  intros H a b Ha Hb. rewrite forallb_forall in H. specialize (H a). rewrite forallb_forall in H. apply H.
  - apply in_map_iff. exists (N.to_nat a). split; [lia|]. apply in_seq. lia.
  - apply in_map_iff. exists (N.to_nat b). split; [lia|]. apply in_seq. lia.
Qed.
Lemma step1 l v : l < 64 -> v < 64 -> bits8 (l * 4 + v / 16) ++ bitsk 4 (v mod 16) = bitsk 6 l ++ bits6 v.
Proof. intros Hl Hv. apply eqb2_eq. apply (two64 (fun l v => eqb2 (bits8 (l * 4 + v / 16) ++ bitsk 4 (v mod 16)) (bitsk 6 l ++ bits6 v))); [vm_compute; reflexivity|exact Hl|exact Hv]. Qed.
Lemma step2 l v : l < 16 -> v < 64 -> bits8 (l * 16 + v / 4) ++ bitsk 2 (v mod 4) = bitsk 4 l ++ bits6 v.
Proof.
  intros Hl Hv. apply eqb2_eq. pose proof (two64 (fun l v => negb (l <? 16) || eqb2 (bits8 (l * 16 + v / 4) ++ bitsk 2 (v mod 4)) (bitsk 4 l ++ bits6 v))) as K.
  specialize (K ltac:(vm_compute; reflexivity) l v ltac:(lia) Hv). cbv beta in K. replace (l <? 16) with true in K by lia. exact K.
Qed.
Lemma step3 l v : l < 4 -> v < 64 -> bits8 (l * 64 + v) = bitsk 2 l ++ bits6 v.
Proof.
  intros Hl Hv. apply eqb2_eq. pose proof (two64 (fun l v => negb (l <? 4) || eqb2 (bits8 (l * 64 + v)) (bitsk 2 l ++ bits6 v))) as K.
  specialize (K ltac:(vm_compute; reflexivity) l v ltac:(lia) Hv). cbv beta in K. replace (l <? 4) with true in K by lia. exact K.
Qed.
Lemma bits6_k v : bitsk 6 v = bits6 v. Proof. reflexivity. Qed.
Lemma bits8_inj a b : a < 256 -> b < 256 -> bits8 a = bits8 b -> a = b.
Proof.
  intros Ha Hb E. assert (K : forall x, x < 256 -> num_of_bits (bits8 x) = x).
  { intros x Hx. apply N.eqb_eq. apply (forall_lt256 (fun x => num_of_bits (bits8 x) =? x)); auto. }
  rewrite <- (K a Ha), <- (K b Hb), E. reflexivity.
Qed.
Lemma bits_length b : length (bits b) = (8 * length b)%nat.
Proof. unfold bits. induction b as [|x b IH]; auto. cbn [flat_map]. rewrite app_length, IH. cbn [length bits8 map]. lia. Qed.
Lemma whole_short bs b : (length bs < 8)%nat -> whole_octets bs b <-> b = [].
Proof.
  intros H. split.
  - intros (_ & z & E & _). destruct b as [|x b]; auto. rewrite E, app_length, bits_length in H. cbn [length] in H. lia.
  - intros ->. split; [constructor|]. exists bs. auto.
Qed.
Lemma whole_cons o bs b : o < 256 -> whole_octets (bits8 o ++ bs) b <-> exists b', b = o :: b' /\ whole_octets bs b'.
Proof.
  intros Ho. split.
  - intros (F & z & E & Hz). destruct b as [|x b].
    + cbn [bits flat_map app] in E. rewrite <- E, app_length in Hz. cbn [bits8 map length] in Hz. lia.
    + inversion F as [|? ? Hx F']; subst. unfold bits in E. cbn [flat_map] in E. rewrite <- app_assoc in E.
      assert (bits8 o = bits8 x /\ bs = flat_map bits8 b ++ z) as [E1 E2].
      { unfold bits8 in *. cbn [map app] in *. injection E. intros. split; [congruence|assumption]. }
      apply bits8_inj in E1; auto. subst x. exists b. split; auto. split; auto. exists z. auto.
  - intros (b' & -> & F & z & -> & Hz). split; [constructor; auto|]. exists z. split; auto. 
Qed.
Lemma bitsk_length k v : length (bitsk k v) = k.
Proof. unfold bitsk. rewrite map_length, rev_length, seq_length. reflexivity. Qed.

(** ** The decoder *)
Section Decode.
Local Notation al := std_values.
Definition reads_from (p r : list N) (left : list bool) (out : list N) : Prop :=
  exists q rest, r = q ++ rest /\ (q <> [] /\ complete al (p ++ q) \/ (rest = [] /\ quantum al (p ++ q) = 0%nat)) /\
    (forall q1 q2, q = q1 ++ q2 -> q1 <> [] -> q2 <> [] -> ~ complete al (p ++ q1)) /\
    whole_octets (left ++ flat_map bits6 (values al q)) out.
Lemma values_app a b : values al (a ++ b) = values al a ++ values al b.
Proof. unfold values. apply flat_map_app. Qed.
Lemma values_one c : values al [c] = value_of al c.
Proof. unfold values. cbn [flat_map]. apply app_nil_r. Qed.
Lemma closing_snoc p c : closing al (rev (p ++ [c])) = match value_of al c with [] => ((if N.eqb c 61 then 1 else 0) + closing al (rev p))%nat | _ => 0%nat end.
Proof. rewrite rev_app_distr. reflexivity. Qed.
(** One character that does not end the text *)
Lemma reads_step p c r left left' out0 out : ~ complete al (p ++ [c]) ->
  (forall x, whole_octets (left ++ flat_map bits6 (value_of al c) ++ x) out <-> exists o, out = out0 ++ o /\ whole_octets (left' ++ x) o) ->
  (reads_from p (c :: r) left out <-> exists o, out = out0 ++ o /\ reads_from (p ++ [c]) r left' o).
Proof.
  intros Hc Hw. assert (V : forall q, flat_map bits6 (values al (c :: q)) = flat_map bits6 (value_of al c) ++ flat_map bits6 (values al q)).
  { intros q. unfold values. cbn [flat_map]. apply flat_map_app. }
  split.
  - intros (q & rest & E & Hs & Hn & Ho). destruct q as [|c' q].
    { destruct Hs as [[K _]|[-> _]]; [congruence|discriminate]. }
    cbn [app] in E. inversion E; subst c' r. rewrite V in Ho. apply Hw in Ho as (o & -> & Ho). exists o. split; auto.
    exists q, rest. split; auto. split; [|split; auto].
    + rewrite <- app_assoc. cbn [app]. destruct Hs as [[_ Hs]|Hs]; [|right; exact Hs]. left. split; auto. intros ->. apply Hc. exact Hs.
    + intros q1 q2 -> H1 H2. rewrite <- app_assoc. apply (Hn (c :: q1) q2); auto. discriminate.
  - intros (o & -> & q & rest & -> & Hs & Hn & Ho). exists (c :: q), rest. split; auto. split; [|split].
    + rewrite <- app_assoc in Hs. cbn [app] in Hs. destruct Hs as [[_ Hs]|Hs]; [|right; exact Hs]. left. split; [discriminate|exact Hs].
    + intros q1 q2 E H1 H2. destruct q1 as [|c' q1]; [congruence|]. cbn [app] in E. inversion E; subst c' q.
      destruct q1 as [|x q1]; [exact Hc|]. specialize (Hn (x :: q1) q2 eq_refl ltac:(discriminate) H2). rewrite <- app_assoc in Hn. exact Hn.
    + rewrite V. apply Hw. exists o. auto.
Qed.
Lemma reads_skip p c r left out : ~ complete al (p ++ [c]) -> value_of al c = [] ->
  (reads_from p (c :: r) left out <-> reads_from (p ++ [c]) r left out).
Proof.
  intros Hc Hv. rewrite (reads_step p c r left left [] out Hc).
  - split; [intros (o & -> & H); exact H|intros H; exists out; auto].
  - intros x. rewrite Hv. cbn [flat_map app]. split; [intros H; exists out; auto|intros (o & -> & H); exact H].
Qed.
Lemma rbind_ok (m : result bytes) (o : N) out : (let! t := m in Ok (o :: t)) = Ok out <-> exists t, out = o :: t /\ m = Ok t.
Proof. destruct m as [t|e]; cbn [rbind]; split; [intros H; inversion H; eauto|intros (t' & -> & H); congruence|discriminate|intros (t' & _ & H); discriminate]. Qed.
Definition width (qp : N) : nat := match qp with 0 => 0%nat | 1 => 6%nat | 2 => 4%nat | _ => 2%nat end.
Lemma width_lt qp : (width qp < 8)%nat.
Proof. unfold width. destruct qp as [|[q|q|]]; try destruct q; lia. Qed.
Lemma a2b_reads r : forall p qp left pads out,
  qp = N.of_nat (quantum al p) -> left < 2 ^ N.of_nat (width qp) -> (2 <= qp -> pads = N.of_nat (closing al (rev p)) /\ qp + pads < 4) ->
  (a2b r qp left pads = Ok out <-> reads_from p r (bitsk (width qp) left) out).
Proof.
  induction r as [|c r IH]; intros p qp left pads out Hq Hl Hp.
  - cbn [a2b]. assert (Lq : (quantum al p < 4)%nat) by (apply Nat.mod_upper_bound; discriminate). split.
    + destruct (N.eqb_spec qp 0) as [E|]; [|discriminate]. intros H. inversion H; subst out. exists [], []. split; auto. split; [|split].
      * right. split; auto. rewrite app_nil_r. lia.
      * intros q1 q2 K H1. symmetry in K. apply app_eq_nil in K as [-> _]. congruence.
      * rewrite E. cbn [width bitsk seq rev map values flat_map app]. apply whole_short; cbn; auto. lia.
    + intros (q & rest & E & Hs & _ & Ho). symmetry in E. apply app_eq_nil in E as [-> ->]. rewrite app_nil_r in Hs.
      destruct Hs as [[K _]|[_ K]]; [congruence|]. replace (qp =? 0) with true by lia.
      assert (E0 : qp = 0) by lia. rewrite E0 in Ho. cbn [width bitsk seq rev map values flat_map app] in Ho. apply whole_short in Ho; [subst out; reflexivity|cbn; lia].
  - cbn [a2b]. assert (Lq : (quantum al p < 4)%nat) by (apply Nat.mod_upper_bound; discriminate).
    destruct (N.eqb_spec c PAD) as [->|Hc].
    + assert (V : value_of al PAD = []) by (rewrite value_std; reflexivity).
      assert (Q : quantum al (p ++ [PAD]) = quantum al p). { unfold quantum. rewrite values_app, values_one, V, app_nil_r. reflexivity. }
      assert (C : closing al (rev (p ++ [PAD])) = S (closing al (rev p))). { rewrite closing_snoc, V. reflexivity. }
      destruct (2 <=? qp) eqn:E2.
      * destruct (Hp ltac:(lia)) as [Hpads Hlt]. destruct (4 <=? qp + (pads + 1)) eqn:E4.
        -- assert (K : complete al (p ++ [PAD])) by (split; rewrite ?C, Q; lia).
           assert (W : (length (bitsk (width qp) left) < 8)%nat). { rewrite bitsk_length. pose proof (width_lt qp). lia. }
           split.
           ++ intros H. inversion H; subst out. exists [PAD], r. split; auto. split; [left; split; auto; discriminate|split].
              ** intros q1 q2 E H1 H2. destruct q1 as [|x q1]; [congruence|]. cbn [app] in E. injection E as _ E. symmetry in E. apply app_eq_nil in E as [_ ->]. congruence.
              ** rewrite values_one, V. cbn [flat_map]. rewrite app_nil_r. apply whole_short; auto.
           ++ intros (q & rest & E & Hs & Hn & Ho). destruct q as [|x q]; [destruct Hs as [[? _]|[-> _]]; [congruence|discriminate]|].
              cbn [app] in E. inversion E; subst x. destruct q as [|y q].
              ** rewrite values_one, V in Ho. cbn [flat_map] in Ho. rewrite app_nil_r in Ho. apply whole_short in Ho; auto. subst out. reflexivity.
              ** exfalso. apply (Hn [PAD] (y :: q)); auto; discriminate.
        -- rewrite reads_skip; auto.
           ++ apply IH; [rewrite Q; exact Hq|exact Hl|]. intros _. rewrite C. lia.
           ++ intros [_ K]. rewrite Q, C in K. lia.
      * rewrite reads_skip; auto.
        -- apply IH; [rewrite Q; exact Hq|exact Hl|]. lia.
        -- intros [K _]. rewrite Q in K. lia.
    + destruct (b64val c) as [v|] eqn:Ev.
      * assert (V : value_of al c = [v]) by (rewrite value_std, Ev; reflexivity). pose proof (b64val_lt _ _ Ev) as Hv.
        assert (C : closing al (rev (p ++ [c])) = 0%nat) by (rewrite closing_snoc, V; reflexivity).
        assert (Q : quantum al (p ++ [c]) = Nat.modulo (S (quantum al p)) 4).
        { unfold quantum. rewrite values_app, values_one, V, app_length. cbn [length]. lia. }
        assert (NC : ~ complete al (p ++ [c])). { intros [_ K]. rewrite C, Q in K. lia. }
        destruct (N.eqb_spec qp 0) as [E0|N0]; [|destruct (N.eqb_spec qp 1) as [E1|N1]; [|destruct (N.eqb_spec qp 2) as [E2|N2]]].
        -- rewrite E0 in *. rewrite (reads_step p c r _ (bitsk 6 v) [] out NC).
           ++ rewrite (IH (p ++ [c]) 1 v 0 out); [|lia|exact Hv|lia]. split; [intros H; exists out; auto|intros (o & -> & H); exact H].
           ++ intros x. rewrite V. cbn [width bitsk seq rev map flat_map app]. split; [intros H; exists out; auto|intros (o & -> & H); exact H].
        -- rewrite E1 in *. change (2 ^ N.of_nat (width 1)) with 64 in Hl. rewrite rbind_ok, (reads_step p c r _ (bitsk 4 (v mod 16)) [left * 4 + v / 16] out NC).
           ++ split; intros (t & -> & H); exists t; (split; [reflexivity|]); revert H; apply (IH (p ++ [c]) 2 (v mod 16) 0 t); try lia; change (2 ^ N.of_nat (width 2)) with 16; lia.
           ++ intros x. rewrite V. cbn [flat_map]. rewrite app_nil_r, app_assoc. change (width 1) with 6%nat. rewrite <- step1, <- app_assoc by auto. rewrite whole_cons by lia. reflexivity.
        -- rewrite E2 in *. change (2 ^ N.of_nat (width 2)) with 16 in Hl. rewrite rbind_ok, (reads_step p c r _ (bitsk 2 (v mod 4)) [left * 16 + v / 4] out NC).
           ++ split; intros (t & -> & H); exists t; (split; [reflexivity|]); revert H; apply (IH (p ++ [c]) 3 (v mod 4) 0 t); try lia; change (2 ^ N.of_nat (width 3)) with 4; lia.
           ++ intros x. rewrite V. cbn [flat_map]. rewrite app_nil_r, app_assoc. change (width 2) with 4%nat. rewrite <- step2, <- app_assoc by auto. rewrite whole_cons by lia. reflexivity.
        -- assert (E3 : qp = 3) by lia. rewrite E3 in *. change (2 ^ N.of_nat (width 3)) with 4 in Hl. rewrite rbind_ok, (reads_step p c r _ (bitsk 0 0) [left * 64 + v] out NC).
           ++ split; intros (t & -> & H); exists t; (split; [reflexivity|]); revert H; apply (IH (p ++ [c]) 0 0 0 t); try lia; change (2 ^ N.of_nat (width 0)) with 1; lia.
           ++ intros x. rewrite V. cbn [flat_map]. rewrite app_nil_r, app_assoc. change (width 3) with 2%nat. rewrite <- step3 by auto. rewrite whole_cons by lia. reflexivity.
      * assert (V : value_of al c = []) by (rewrite value_std, Ev; reflexivity).
        assert (Q : quantum al (p ++ [c]) = quantum al p). { unfold quantum. rewrite values_app, values_one, V, app_nil_r. reflexivity. }
        assert (C : closing al (rev (p ++ [c])) = closing al (rev p)). { rewrite closing_snoc, V. unfold PAD in Hc. replace (c =? 61) with false by lia. reflexivity. }
        rewrite reads_skip; auto.
        -- apply IH; [rewrite Q; exact Hq|exact Hl|]. intros H. rewrite C. apply Hp. exact H.
        -- intros [K1 K2]. rewrite Q, ?C in *. lia.
Qed.
End Decode.
Lemma b64decode_iff t b : b64decode t = Ok b <-> base64_text std_values t b.
Proof.
  unfold b64decode. rewrite (a2b_reads t [] 0 0 0 b); [|reflexivity|reflexivity|lia].
  change (bitsk (width 0) 0) with (@nil bool). split.
  - intros (q & rest & -> & Hs & Hn & Ho). constructor.
    + intros p1 p2 E H2. destruct p1 as [|x p1]; [intros [K _]; cbn in K; lia|]. apply (Hn (x :: p1) p2); auto. discriminate.
    + cbn [app] in Hs. tauto.
    + exact Ho.
  - intros [p rest b' Hn Hs Ho]. exists p, rest. split; auto. split; [|split].
    + cbn [app]. destruct Hs as [Hs|Hs]; [left; split; auto; intros ->; destruct Hs as [K _]; cbn in K; lia|right; exact Hs].
    + intros q1 q2 E _ H2. cbn [app]. eapply Hn; eauto.
    + exact Ho.
Qed.

(** ** Both alphabets *)
Lemma any_pad c : (url_to_std c =? 61) = (c =? 61).
Proof. unfold url_to_std. destruct (c =? 45) eqn:E1; [lia|]. destruct (c =? 95) eqn:E2; lia. Qed.
Lemma closing_any r : closing std_values (map url_to_std r) = closing any_values r.
Proof.
  induction r as [|c r IH]; auto. cbn [map closing]. rewrite value_std, value_any. destruct (b64val (url_to_std c)); auto. cbn [opt_list].
  rewrite any_pad, IH. reflexivity.
Qed.
Lemma quantum_any p : quantum std_values (map url_to_std p) = quantum any_values p.
Proof. unfold quantum. rewrite values_any. reflexivity. Qed.
Lemma complete_any p : complete std_values (map url_to_std p) <-> complete any_values p.
Proof. unfold complete. rewrite quantum_any, <- map_rev, closing_any. tauto. Qed.
Lemma text_any t b : base64_text std_values (map url_to_std t) b <-> base64_text any_values t b.
Proof.
  split.
  - intros H. inversion H as [p rest b' Hn Hs Ho E]; subst b'. symmetry in E. apply map_eq_app in E as (p' & rest' & -> & <- & <-). constructor.
    + intros p1 p2 -> H2. rewrite <- complete_any. apply (Hn _ (map url_to_std p2)); [apply map_app|]. destruct p2; [congruence|discriminate].
    + rewrite <- complete_any, <- quantum_any. destruct Hs as [Hs|[E Hs]]; [left; exact Hs|right; split; auto]. destruct rest'; [reflexivity|discriminate].
    + rewrite values_any. exact Ho.
  - intros [p rest b' Hn Hs Ho]. rewrite map_app. constructor.
    + intros p1 p2 E H2. apply map_eq_app in E as (q1 & q2 & -> & <- & <-). rewrite complete_any. eapply Hn; eauto. intros ->. apply H2. reflexivity.
    + rewrite complete_any, quantum_any. destruct Hs as [Hs|[-> Hs]]; [left|right; split]; auto.
    + rewrite <- values_any. exact Ho.
Qed.
Lemma base64url_decode_iff t b : base64url_decode t = Ok b <-> base64_text any_values (t ++ repeat 61 (Nat.modulo (length t) 4)) b.
Proof. unfold base64url_decode, urlsafe_b64decode. rewrite b64decode_iff, text_any. reflexivity. Qed.

(** Texts of the alphabet of section 5 only *)
Lemma url_value c : In c url_alphabet -> exists v, value_of any_values c = [v].
Proof.
  intros H. assert (F : forallb (fun c => Nat.eqb (length (value_of any_values c)) 1) url_alphabet = true) by (vm_compute; reflexivity).
  rewrite forallb_forall in F. apply F in H. destruct (value_of any_values c) as [|v [|? ?]]; try discriminate. eauto.
Qed.
Lemma url_quantum t : Forall (fun c => In c url_alphabet) t -> length (values any_values t) = length t.
Proof. induction 1 as [|c t Hc H IH]; auto. unfold values in *. cbn [flat_map]. destruct (url_value c Hc) as [v ->]. cbn [app length]. congruence. Qed.
Lemma url_closing t : Forall (fun c => In c url_alphabet) t -> closing any_values t = 0%nat.
Proof. intros [|c r Hc H]; auto. cbn [closing]. destruct (url_value c Hc) as [v ->]. reflexivity. Qed.
Lemma url_incomplete t : Forall (fun c => In c url_alphabet) t -> ~ complete any_values t.
Proof.
  intros H [_ K]. rewrite url_closing in K by (apply Forall_rev; exact H). unfold quantum in K.
  pose proof (Nat.mod_upper_bound (length (values any_values t)) 4 ltac:(discriminate)). lia.
Qed.
Lemma value_pad : value_of any_values 61 = [].
Proof. vm_compute. reflexivity. Qed.
Lemma pads_values j : values any_values (repeat 61 j) = [].
Proof. induction j as [|j IH]; [reflexivity|]. change (values any_values (repeat 61 (S j))) with (value_of any_values 61 ++ values any_values (repeat 61 j)). rewrite IH, value_pad. reflexivity. Qed.
Lemma pads_closing j r : closing any_values (repeat 61 j ++ r) = (j + closing any_values r)%nat.
Proof. induction j as [|j IH]; [reflexivity|]. cbn [repeat app closing]. rewrite value_pad, IH. reflexivity. Qed.
Lemma rev_repeat (x : N) j : rev (repeat x j) = repeat x j.
Proof.
  induction j as [|j IH]; auto. cbn [repeat rev]. rewrite IH. clear IH. induction j as [|j IH]; auto. cbn [repeat app]. f_equal. exact IH.
Qed.
Lemma values_app' al a b : values al (a ++ b) = values al a ++ values al b.
Proof. unfold values. apply flat_map_app. Qed.
Lemma padded_complete t j : Forall (fun c => In c url_alphabet) t ->
  (complete any_values (t ++ repeat 61 j) <-> (2 <= Nat.modulo (length t) 4)%nat /\ (Nat.modulo (length t) 4 + j = 4)%nat).
Proof.
  intros H. unfold complete, quantum. rewrite values_app', pads_values, app_nil_r, url_quantum by exact H.
  rewrite rev_app_distr, rev_repeat, pads_closing, url_closing by (apply Forall_rev; exact H). rewrite Nat.add_0_r. tauto.
Qed.
Lemma base64url_plain t b : Forall (fun c => In c url_alphabet) t ->
  (base64url_decode t = Ok b <-> Nat.modulo (length t) 4 <> 1%nat /\ whole_octets (flat_map bits6 (values any_values t)) b).
Proof.
  intros H. rewrite base64url_decode_iff. set (k := Nat.modulo (length t) 4).
  assert (Hk : (k < 4)%nat) by (apply Nat.mod_upper_bound; discriminate).
  assert (P : forall p rest, t ++ repeat 61 k = p ++ rest -> (exists l, t = p ++ l) \/ exists j, p = t ++ repeat 61 j /\ (j + length rest = k)%nat).
  { intros p rest E. symmetry in E. apply app_eq_app in E as (l & [[E1 E2]|[E1 _]]); [|left; eauto]. right.
    pose proof (repeat_length 61 k) as L. rewrite E2, app_length in L. symmetry in E2. pose proof (repeat_eq_app _ _ _ _ (eq_sym E2)) as [E3 _]. exists (length l). rewrite E3. auto. }
  assert (Fp : forall p l, t = p ++ l -> Forall (fun c => In c url_alphabet) p). { intros p l ->. apply Forall_app in H. tauto. }
  split.
  - intros X. inversion X as [p rest b' Hn Hs Ho E]; subst b'. symmetry in E. pose proof (P p rest E) as [[l El]|(j & -> & Hj)].
    + pose proof (url_incomplete p (Fp p l El)). destruct Hs as [Hs|[-> Hs]]; [contradiction|]. rewrite app_nil_r in E.
      assert (L : length (t ++ repeat 61 k) = length p) by (rewrite E; reflexivity). rewrite app_length, repeat_length in L.
      assert (L2 : length t = (length p + length l)%nat) by (rewrite El, app_length; reflexivity).
      assert (l = []) by (destruct l; [reflexivity|cbn [length] in L2; lia]). subst l. rewrite app_nil_r in El. split; [lia|]. rewrite El at 1. exact Ho.
    + rewrite values_app', pads_values, app_nil_r in Ho. split; auto. intros K1.
      destruct Hs as [Hs|[_ Hs]].
      * rewrite padded_complete in Hs by exact H. fold k in Hs. lia.
      * unfold quantum in Hs. rewrite values_app', pads_values, app_nil_r, url_quantum in Hs by exact H. fold k in Hs. clear - Hs K1. congruence.
  - intros [K1 Ho]. set (j := if Nat.eqb k 0 then 0%nat else (4 - k)%nat).
    assert (Ej : repeat 61%N k = repeat 61%N j ++ repeat 61%N (k - j)).
    { rewrite <- repeat_app. f_equal. unfold j. destruct (Nat.eqb_spec k 0); lia. }
    rewrite Ej, app_assoc. constructor.
    + intros p1 p2 E H2. assert (E' : t ++ repeat 61 k = p1 ++ (p2 ++ repeat 61 (k - j))) by (rewrite Ej, !app_assoc, E; reflexivity).
      pose proof (P _ _ E') as [[l El]|(i & -> & Hi)]; [apply url_incomplete; eapply Fp; eauto|].
      rewrite padded_complete by exact H. fold k. rewrite app_length, repeat_length in Hi. destruct p2; [congruence|]. cbn [length] in Hi.
      unfold j in Hi. destruct (Nat.eqb_spec k 0); lia.
    + destruct (Nat.eqb_spec k 0) as [E0|N0].
      * right. unfold j. rewrite E0. split; [reflexivity|]. cbn [repeat Nat.eqb]. rewrite app_nil_r. unfold quantum. rewrite url_quantum by exact H. exact E0.
      * left. rewrite padded_complete by exact H. fold k. unfold j. destruct (Nat.eqb_spec k 0); lia.
    + rewrite values_app', pads_values, app_nil_r. exact Ho.
Qed.

(** ** The standard encoder *)
Lemma std_nth v : v < 64 -> nth (N.to_nat v) std_alphabet 0 = b64char false v.
Proof. intros H. apply N.eqb_eq. apply (forall_lt64 (fun v => nth (N.to_nat v) std_alphabet 0 =? b64char false v)); auto. Qed.
Lemma std_char v w : v < 64 -> w = v -> nth (N.to_nat w) std_alphabet 0 = b64char false v.
Proof. intros H ->. apply std_nth. exact H. Qed.
Definition std_text (l : list N) : list N := map (fun g => nth (N.to_nat (num_of_bits g)) std_alphabet 0) (groups6 (bits l)).
Ltac by_bits := repeat match goal with H : ?l = _ |- _ => match l with _ / _ => rewrite H; clear H | _ mod _ => rewrite H; clear H end end; lia.
Ltac std_chars := repeat match goal with L : ?v < 64 |- _ => rewrite (std_char v _ L) by by_bits; clear L end.
Lemma b64encode_text l : bytes_ok l -> b64encode false l = std_text l ++ repeat 61 (Nat.modulo (4 - Nat.modulo (length (std_text l)) 4) 4).
Proof.
  intros H. induction l as [|a|a b|a b c r IH] using block3_ind.
  - reflexivity.
  - inversion H as [|? ? Ha _]; subst.
    assert (L2 : (a mod 4) * 16 < 64) by (clear; lia). assert (L1 : a / 4 < 64) by (clear - Ha; lia). bits_of a Ha.
    assert (E' : std_text [a] = [b64char false (a / 4); b64char false ((a mod 4) * 16)]).
    { unfold std_text, bits. cbn [flat_map]. rewrite E. cbn [app groups6 length repeat Nat.sub map]. rewrite !num6. cbv zeta. std_chars. reflexivity. }
    rewrite E'. reflexivity.
  - inversion H as [|? ? Ha Hr]; subst. inversion Hr as [|? ? Hb _]; subst.
    assert (L3 : (b mod 16) * 4 < 64) by (clear; lia). assert (L2 : (a mod 4) * 16 + b / 16 < 64) by (clear - Hb; lia). assert (L1 : a / 4 < 64) by (clear - Ha; lia).
    bits_of a Ha. bits_of b Hb.
    assert (E' : std_text [a; b] = [b64char false (a / 4); b64char false ((a mod 4) * 16 + b / 16); b64char false ((b mod 16) * 4)]).
    { unfold std_text, bits. cbn [flat_map]. rewrite E, E0. cbn [app groups6 length repeat Nat.sub map]. rewrite !num6. cbv zeta. std_chars. reflexivity. }
    rewrite E'. reflexivity.
  - inversion H as [|? ? Ha Hr]; subst. inversion Hr as [|? ? Hb Hr2]; subst. inversion Hr2 as [|? ? Hc Hr3]; subst. specialize (IH Hr3).
    assert (L4 : c mod 64 < 64) by (clear; lia). assert (L3 : (b mod 16) * 4 + c / 64 < 64) by (clear - Hc; lia).
    assert (L2 : (a mod 4) * 16 + b / 16 < 64) by (clear - Hb; lia). assert (L1 : a / 4 < 64) by (clear - Ha; lia).
    bits_of a Ha. bits_of b Hb. bits_of c Hc.
    assert (E' : std_text (a :: b :: c :: r) = b64char false (a / 4) :: b64char false ((a mod 4) * 16 + b / 16) :: b64char false ((b mod 16) * 4 + c / 64) :: b64char false (c mod 64) :: std_text r).
    { unfold std_text at 1, bits. cbn [flat_map]. rewrite E, E0, E1. cbn [app groups6 map]. rewrite !num6. cbv zeta. std_chars. reflexivity. }
    rewrite E'. cbn [b64encode app length]. rewrite IH.
    replace (Nat.modulo (S (S (S (S (length (std_text r)))))) 4) with (Nat.modulo (length (std_text r)) 4) by (clear; lia). reflexivity.
Qed.
Lemma b64encode_rfc l : bytes_ok l -> b64encode false l = rfc4648 l.
Proof. exact (b64encode_text l). Qed.
