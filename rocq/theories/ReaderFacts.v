(** The readers of the model read the texts of SpecReaders.v. *)
From Coq Require Import String Ascii List NArith ZArith Bool Lia Arith.
From Coq Require Import ZifyBool ZifyNat ZifyN.
From Verif Require Import Base BaseFacts Utf8 Json JsonFacts Url SpecCodec SpecReaders.
Import ListNotations.
Open Scope N_scope.
Ltac Zify.zify_post_hook ::= Z.div_mod_to_equations.

(** ** Dicts *)
Lemma same_eqs a b : (if same_text a b then true else false) = eqs a b.
Proof. destruct (same_text a b) as [->|H]; [symmetry; apply eqs_refl|]. symmetry. apply eqs_false. exact H. Qed.
Lemma dict_of_snoc {V} (l : list (str * V)) k v : dict_of (l ++ [(k, v)]) = dset k v (dict_of l).
Proof. unfold dict_of, dupdate. rewrite fold_left_app. reflexivity. Qed.
Lemma first_names_snoc {V} (l : list (str * V)) k v :
  first_names (l ++ [(k, v)]) = if in_dec same_text k (map fst l) then first_names l else first_names l ++ [k].
Proof.
  unfold first_names. rewrite map_app, rev_app_distr. cbn [map rev app fst nodup].
  match goal with |- rev (if ?a then _ else _) = (if ?b then _ else _) => destruct a as [H|H]; destruct b as [H'|H'] end.
  - reflexivity.
  - exfalso. apply H'. apply in_rev. exact H.
  - exfalso. apply H. apply in_rev in H'. exact H'.
  - reflexivity.
Qed.
Lemma last_of_snoc {V} (l : list (str * V)) k v k' : last_of k' (l ++ [(k, v)]) = if same_text k k' then [v] else last_of k' l.
Proof. unfold last_of. rewrite rev_app_distr. cbn [rev app find fst]. destruct (same_text k k'); reflexivity. Qed.
Lemma last_of_in {V} k (l : list (str * V)) : In k (map fst l) -> exists v, last_of k l = [v].
Proof.
  intros H. unfold last_of. destruct (find _ (rev l)) as [kv|] eqn:E; [eauto|]. exfalso.
  apply in_map_iff in H as (kv & <- & H). apply in_rev in H. pose proof (find_none _ _ E _ H) as K. cbn beta in K.
  destruct (same_text (fst kv) (fst kv)); congruence.
Qed.
Lemma first_names_in {V} (l : list (str * V)) k : In k (first_names l) <-> In k (map fst l).
Proof. unfold first_names. rewrite <- in_rev, nodup_In, <- in_rev. reflexivity. Qed.
Lemma first_names_nodup {V} (l : list (str * V)) : NoDup (first_names l).
Proof. unfold first_names. apply NoDup_rev, NoDup_nodup. Qed.
Lemma flat_map_ext_in {A B} (f g : A -> list B) l : (forall a, In a l -> f a = g a) -> flat_map f l = flat_map g l.
Proof. intros H. rewrite !flat_map_concat_map. f_equal. apply map_ext_in. exact H. Qed.
Lemma dset_other {V} k (v : V) (f : str -> list V) ns : ~ In k ns ->
  dset k v (flat_map (fun n => map (pair n) (f n)) ns) = flat_map (fun n => map (pair n) (f n)) ns ++ [(k, v)].
Proof.
  assert (A : forall d : list (str * V), ~ In k (map fst d) -> dset k v d = d ++ [(k, v)]).
  { induction d as [|[a b] d IH]; intros H; cbn [dset app]; auto.
    replace (eqs k a) with false by (symmetry; apply eqs_false; intros ->; apply H; left; auto).
    rewrite IH; auto. intros K. apply H. right. exact K. }
  intros H. apply A. intros K. apply H. apply in_map_iff in K as ([a b] & E & K). cbn in E. subst a.
  apply in_flat_map in K as (n & Hn & K). apply in_map_iff in K as (x & E & _). congruence.
Qed.
Lemma dset_same {V} k (v : V) (f g : str -> list V) ns : NoDup ns -> In k ns -> (forall n, In n ns -> exists x, f n = [x]) ->
  g k = [v] -> (forall n, n <> k -> g n = f n) ->
  dset k v (flat_map (fun n => map (pair n) (f n)) ns) = flat_map (fun n => map (pair n) (g n)) ns.
Proof.
  intros ND. induction ND as [|n ns Hn ND IH]; intros Hin Hf Hk Hg; [destruct Hin|]. cbn [flat_map].
  destruct (Hf n (or_introl eq_refl)) as (x & Ex). rewrite Ex. cbn [map app dset].
  destruct (eqs_spec k n) as [->|Hne].
  - rewrite Hk. cbn [map app]. f_equal. apply flat_map_ext_in. intros a Ha. rewrite Hg; auto. intros ->. auto.
  - rewrite Hg, Ex by auto. cbn [map app]. f_equal. apply IH; auto; [|intros; apply Hf; right; auto].
    destruct Hin as [->|Hin]; [congruence|auto].
Qed.
Lemma merged_dict {V} (l : list (str * V)) : dict_of l = merged l.
Proof.
  induction l as [|[k v] l IH] using rev_ind; [reflexivity|].
  rewrite dict_of_snoc, IH. unfold merged. rewrite first_names_snoc.
  destruct (in_dec same_text k (map fst l)) as [H|H].
  - apply dset_same; [apply first_names_nodup|apply first_names_in; exact H| | |].
    + intros n Hn. apply last_of_in. apply first_names_in in Hn. exact Hn.
    + rewrite last_of_snoc. destruct (same_text k k); congruence.
    + intros n Hn. rewrite last_of_snoc. destruct (same_text k n); congruence.
  - rewrite dset_other by (rewrite first_names_in; exact H). rewrite flat_map_app. f_equal.
    + apply flat_map_ext_in. intros a Ha. rewrite last_of_snoc. destruct (same_text k a) as [->|]; auto.
      apply first_names_in in Ha. contradiction.
    + cbn [flat_map]. rewrite last_of_snoc. destruct (same_text k k); [reflexivity|congruence].
Qed.

(** ** Characters *)
Lemma chars_lit s : chars s = lit s.
Proof. reflexivity. Qed.
Lemma hex_in a x : In (a, x) hex_digits <-> hexval a = Some x.
Proof.
  assert (B : forall n, n < 128 -> forall y, y < 17 -> (existsb (fun p => (fst p =? n) && (snd p =? y)) hex_digits) = match hexval n with Some z => z =? y | None => false end).
  { intros n Hn y Hy.
    assert (K : forallb (fun n => forallb (fun y => Bool.eqb (existsb (fun p => (fst p =? n) && (snd p =? y)) hex_digits) match hexval n with Some z => z =? y | None => false end) (map N.of_nat (seq 0 17))) (map N.of_nat (seq 0 128)) = true) by (vm_compute; reflexivity).
    rewrite forallb_forall in K. specialize (K n). rewrite forallb_forall in K. apply Bool.eqb_prop. apply K.
    - rewrite <- (N2Nat.id n). apply in_map. apply in_seq. lia.
    - rewrite <- (N2Nat.id y). apply in_map. apply in_seq. lia. }
  split.
  - intros H. assert (L : a < 128 /\ x < 17).
    { assert (F : forallb (fun p => (fst p <? 128) && (snd p <? 17)) hex_digits = true) by (vm_compute; reflexivity).
      rewrite forallb_forall in F. specialize (F _ H). cbn [fst snd] in F. lia. }
    specialize (B a (proj1 L) x (proj2 L)).
    rewrite (proj2 (existsb_exists _ _)) in B.
    2:{ exists (a, x). split; auto. cbn. rewrite !N.eqb_refl. reflexivity. }
    destruct (hexval a) as [z|]; [|discriminate]. f_equal. lia.
  - intros H. assert (L : a < 128 /\ x < 17).
    { unfold hexval in H. repeat match type of H with (if ?b then _ else _) = _ => destruct b eqn:? end; inversion H; subst; lia. }
    specialize (B a (proj1 L) x (proj2 L)). rewrite H, N.eqb_refl in B. apply existsb_exists in B as ([a' x'] & HIn & E).
    cbn in E. replace a with a' by lia. replace x with x' by lia. exact HIn.
Qed.
Lemma four_hex4 a b c d u : four_digits [a; b; c; d] u <-> hex4 a b c d = Some u.
Proof.
  unfold hex4. split.
  - intros (a' & b' & c' & d' & x & y & z & w & E & H1 & H2 & H3 & H4 & ->). inversion E; subst.
    apply hex_in in H1, H2, H3, H4. rewrite H1, H2, H3, H4. f_equal. lia.
  - destruct (hexval a) as [x|] eqn:H1; [|discriminate]. destruct (hexval b) as [y|] eqn:H2; [|discriminate].
    destruct (hexval c) as [z|] eqn:H3; [|discriminate]. destruct (hexval d) as [w|] eqn:H4; [|discriminate].
    intros H. inversion H; subst. apply hex_in in H1, H2, H3, H4. exists a, b, c, d, x, y, z, w. repeat split; auto. lia.
Qed.
Lemma four_length h u : four_digits h u -> exists a b c d, h = [a; b; c; d] /\ hex4 a b c d = Some u.
Proof.
  intros H. pose proof H as (a & b & c & d & x & y & z & w & -> & _). exists a, b, c, d. split; auto. apply four_hex4. exact H.
Qed.
Lemma high_spec u : high_surr u = true <-> high u.
Proof. unfold high_surr, high. lia. Qed.
Lemma low_spec u : low_surr u = true <-> low u.
Proof. unfold low_surr, low. lia. Qed.
Lemma esc_in e x : In (e, x) escapes <-> unesc e = Some x.
Proof.
  unfold escapes, unesc. split.
  - intros H. cbn [In] in H. repeat (destruct H as [H|H]; [inversion H; subst; reflexivity|]). destruct H.
  - intros H. repeat match type of H with
    | (if ?a =? ?b then _ else _) = _ => let E := fresh in destruct (a =? b) eqn:E; [apply N.eqb_eq in E; inversion H; subst; cbn [In]; auto 12|]
    end. discriminate.
Qed.
Lemma esc_not_u e x : In (e, x) escapes -> e <> 117.
Proof. intros H ->. apply esc_in in H. discriminate. Qed.

(** ** Strings *)
Lemma scan_string ext t v : string_text ext t v -> forall rest, scan_str (t ++ 34 :: rest) = Ok (v, rest).
Proof.
  induction 1 as [|c t v H1 H2 H3 H IH|e x t v He H IH|h u t v Hf Hh Hl H IH|h u l w t v Hf Hh Hf' Hl H IH|h u t v Hx Hf Hs Hn H IH]; intros rest.
  - cbn [app scan_str]. change (34 =? 34) with true. reflexivity.
  - cbn [app scan_str]. replace (c =? 34) with false by lia. replace (c =? 92) with false by lia. replace (c <? 32) with false by lia.
    rewrite IH. reflexivity.
  - cbn [app scan_str]. change (92 =? 34) with false. change (92 =? 92) with true. cbv iota.
    pose proof (esc_not_u _ _ He). replace (e =? 117) with false by lia. apply esc_in in He. rewrite He, IH. reflexivity.
  - apply four_length in Hf as (a & b & c & d & -> & Hf). cbn [app scan_str]. change (92 =? 34) with false. change (92 =? 92) with true.
    change (117 =? 117) with true. cbv iota. rewrite Hf. replace (high_surr u) with false by (symmetry; apply not_true_iff_false; rewrite high_spec; exact Hh).
    rewrite IH. reflexivity.
  - apply four_length in Hf as (a & b & c & d & -> & Hf). apply four_length in Hf' as (a' & b' & c' & d' & -> & Hf').
    cbn [app scan_str]. change (92 =? 34) with false. change (92 =? 92) with true. change (117 =? 117) with true. cbv iota. rewrite Hf.
    rewrite (proj2 (high_spec u) Hh). cbn [andb]. rewrite Hf', (proj2 (low_spec w) Hl), IH. cbn [pcons]. do 3 f_equal. lia.
  - apply four_length in Hf as (a & b & c & d & -> & Hf). cbn [app scan_str]. change (92 =? 34) with false. change (92 =? 92) with true.
    change (117 =? 117) with true. cbv iota. rewrite Hf. destruct (high_surr u) eqn:Eh; [|rewrite IH; reflexivity].
    apply high_spec in Eh. specialize (Hn Eh).
    assert (K : forall x y b1 b2 b3 b4 r3, t ++ 34 :: rest = x :: y :: b1 :: b2 :: b3 :: b4 :: r3 -> (x =? 92) && (y =? 117) = true ->
      exists w, hex4 b1 b2 b3 b4 = Some w /\ low_surr w = false).
    { intros x y b1 b2 b3 b4 r3 E Exy. assert (x = 92) by lia. assert (y = 117) by lia. subst x y.
      inversion H as [E1|c1 t1 v1 G1 G2 G3 G E1|e1 x1 t1 v1 G1 G E1|h1 u1 t1 v1 G1 G2 G3 G E1|h1 u1 l1 w1 t1 v1 G1 G2 G3 G4 G E1|h1 u1 t1 v1 G0 G1 G2 G3 G E1]; subst t.
      - discriminate.
      - cbn in E. congruence.
      - cbn [app] in E. inversion E; subst. apply esc_not_u in G1. congruence.
      - pose proof G1 as G1'. apply four_length in G1 as (p1 & p2 & p3 & p4 & -> & G1). cbn [app] in E. inversion E; subst. exists u1. split; auto.
        apply not_true_iff_false. rewrite low_spec. exact G3.
      - pose proof G1 as G1'. apply four_length in G1 as (p1 & p2 & p3 & p4 & -> & G1). cbn [app] in E. inversion E; subst. exists u1. split; auto.
        apply not_true_iff_false. rewrite low_spec. unfold low, high in *. lia.
      - pose proof G1 as G1'. apply four_length in G1 as (p1 & p2 & p3 & p4 & -> & G1). cbn [app] in E. inversion E; subst. exists u1. split; auto.
        apply not_true_iff_false. rewrite low_spec. apply (Hn [b1; b2; b3; b4] u1 t1); auto. }
    destruct (t ++ 34 :: rest) as [|x [|y [|b1 [|b2 [|b3 [|b4 r3]]]]]] eqn:Et; rewrite <- ?Et; try (rewrite IH; reflexivity).
    destruct ((x =? 92) && (y =? 117)) eqn:Exy; [|rewrite IH; reflexivity].
    destruct (K x y b1 b2 b3 b4 r3 eq_refl Exy) as (w & -> & ->). rewrite IH. reflexivity.
Qed.
Lemma scan_string_inv s v rest : scan_str s = Ok (v, rest) -> exists t, s = t ++ 34 :: rest /\ string_text true t v.
Proof.
  remember (length s) as n eqn:Hn. revert s v Hn. induction n as [n IH] using (well_founded_induction PeanoNat.Nat.lt_wf_0). intros s v -> H.
  destruct s as [|c r]; [discriminate|]. cbn [scan_str] in H.
  assert (K : forall x u, (length u < length (c :: r))%nat -> pcons x (scan_str u) = Ok (v, rest) -> exists v' t, v = x :: v' /\ u = t ++ 34 :: rest /\ string_text true t v').
  { intros x u Hu Hp. destruct (scan_str u) as [[v' z]|] eqn:E; [|discriminate]. cbn [pcons] in Hp. inversion Hp; subst.
    destruct (IH (length u) Hu u v' eq_refl E) as (t & -> & Ht). exists v', t. auto. }
  clear IH. destruct (c =? 34) eqn:E1.
  { inversion H; subst. exists []. split; [cbn; f_equal; lia|constructor]. }
  destruct (c =? 92) eqn:E2.
  2:{ destruct (c <? 32) eqn:E3; [discriminate|]. apply K in H as (v' & t & -> & -> & Ht); [|cbn; lia].
      exists (c :: t). split; [reflexivity|]. apply st_plain; auto; lia. }
  assert (c = 92) by lia. subst c. clear E1 E2. destruct r as [|e r1]; [discriminate|].
  destruct (e =? 117) eqn:Ee.
  2:{ destruct (unesc e) as [x|] eqn:Eu; [|discriminate]. apply K in H as (v' & t & -> & -> & Ht); [|cbn; lia].
      exists (92 :: e :: t). split; [reflexivity|]. apply st_escape; auto. apply esc_in. exact Eu. }
  assert (e = 117) by lia. subst e. clear Ee. destruct r1 as [|a1 [|a2 [|a3 [|a4 r2]]]]; try discriminate.
  destruct (hex4 a1 a2 a3 a4) as [u|] eqn:E4; [|discriminate].
  assert (Lone : pcons u (scan_str r2) = Ok (v, rest) ->
    (high u -> forall b1 b2 b3 b4 w t', r2 = 92 :: 117 :: b1 :: b2 :: b3 :: b4 :: t' -> hex4 b1 b2 b3 b4 = Some w -> ~ low w) ->
    exists t, 92 :: 117 :: a1 :: a2 :: a3 :: a4 :: r2 = t ++ 34 :: rest /\ string_text true t v).
  { intros Hp Hl. apply K in Hp as (v' & t & -> & -> & Ht); [|cbn; lia]. exists (92 :: 117 :: [a1; a2; a3; a4] ++ t). split; [reflexivity|].
    apply four_hex4 in E4. destruct (high_surr u) eqn:Eh; [|destruct (low_surr u) eqn:El].
    - apply high_spec in Eh. apply st_lone; auto. intros _ l w t' -> Hf. pose proof Hf as Hf'. apply four_length in Hf' as (b1 & b2 & b3 & b4 & -> & Hf').
      eapply Hl; [exact Eh|reflexivity|exact Hf'].
    - apply low_spec in El. apply st_lone; auto. intros Hh. unfold high, low in *. lia.
    - apply st_unicode; auto; rewrite <- ?high_spec, <- ?low_spec; congruence. }
  destruct (high_surr u) eqn:Eh.
  2:{ apply Lone; auto. intros Hh. apply high_spec in Hh. congruence. }
  destruct r2 as [|x [|y [|b1 [|b2 [|b3 [|b4 r3]]]]]]; try (apply Lone; [exact H|intros; congruence]).
  destruct ((x =? 92) && (y =? 117)) eqn:Exy.
  2:{ apply Lone; [exact H|]. intros _ ? ? ? ? w t' E Hf. inversion E; subst. discriminate. }
  assert (x = 92) by lia. assert (y = 117) by lia. subst x y.
  destruct (hex4 b1 b2 b3 b4) as [w|] eqn:E5; [|discriminate].
  destruct (low_surr w) eqn:El.
  - apply K in H as (v' & t & -> & -> & Ht); [|cbn; lia]. exists (92 :: 117 :: [a1; a2; a3; a4] ++ 92 :: 117 :: [b1; b2; b3; b4] ++ t).
    split; [reflexivity|]. replace (65536 + (u - 55296) * 1024 + (w - 56320)) with (65536 + 1024 * (u - 55296) + (w - 56320)) by lia.
    apply st_pair; auto; try (apply four_hex4; assumption); [apply high_spec; auto|apply low_spec; auto].
  - apply Lone; [exact H|]. intros _ c1 c2 c3 c4 w' t' E Hf. inversion E; subst. rewrite E5 in Hf. inversion Hf; subst. rewrite <- low_spec. congruence.
Qed.

(** ** Numbers *)
Lemma digit_spec c : is_digit c = true <-> digit c.
Proof. unfold is_digit, digit. lia. Qed.
Definition no_digit (s : str) : Prop := match s with [] => True | c :: _ => is_digit c = false end.
Lemma span_all ds rest : Forall digit ds -> no_digit rest -> span_digits (ds ++ rest) = (ds, rest).
Proof.
  intros H Hr. induction H as [|d ds Hd H IH]; cbn [app span_digits].
  - destruct rest as [|c r]; auto. cbn in Hr. cbn [span_digits]. rewrite Hr. reflexivity.
  - apply digit_spec in Hd. rewrite Hd, IH. reflexivity.
Qed.
Lemma span_inv s a b : span_digits s = (a, b) -> s = a ++ b /\ Forall digit a.
Proof.
  revert a b. induction s as [|c s IH]; intros a b H; cbn [span_digits] in H.
  - inversion H; subst. auto.
  - destruct (is_digit c) eqn:E; [|inversion H; subst; auto].
    destruct (span_digits s) as [a' b']. inversion H; subst. destruct (IH _ _ eq_refl) as [-> HF].
    split; auto. constructor; auto. apply digit_spec. exact E.
Qed.
Lemma digits_val_acc ds : forall acc, Forall digit ds ->
  Z.of_N (fold_left (fun acc d => acc * 10 + (d - 48)) ds acc) = (Z.of_N acc * 10 ^ Z.of_nat (length ds) + decimal ds)%Z.
Proof.
  induction ds as [|d ds IH]; intros acc H; [cbn; lia|]. inversion H as [|? ? Hd H']; subst. unfold digit in Hd.
  cbn [fold_left decimal length]. rewrite IH by auto. rewrite Nat2Z.inj_succ, Z.pow_succ_r by lia.
  replace (Z.of_N (acc * 10 + (d - 48))) with (Z.of_N acc * 10 + (Z.of_N d - 48))%Z by lia. ring.
Qed.
Lemma digits_decimal ds : Forall digit ds -> Z.of_N (digits_val ds) = decimal ds.
Proof. intros H. unfold digits_val. rewrite digits_val_acc by auto. cbn. reflexivity. Qed.
Lemma int_digits i : int_text i -> Forall digit i /\ exists d r, i = d :: r /\ digit d.
Proof.
  intros [|d r Hd Hn Hr].
  - assert (digit 48) by (unfold digit; lia). split; [repeat constructor; auto; unfold digit; lia|eauto].
  - split; [constructor; auto|eauto].
Qed.
Lemma scan_int_text i rest : int_text i -> no_digit rest -> scan_int (i ++ rest) = Some (i, rest).
Proof.
  intros [|d r Hd Hn Hr] Hs; [reflexivity|]. cbn [app scan_int]. replace (d =? 48) with false by lia.
  pose proof Hd as Hd'. apply digit_spec in Hd'. rewrite Hd'. rewrite app_comm_cons. rewrite span_all; auto.
Qed.
Lemma scan_frac_text f rest : frac_text f -> stop rest -> scan_frac (f ++ rest) = (f, rest) \/ (f = [] /\ scan_frac rest = ([], rest)).
Proof.
  intros [|d r Hd Hr] Hs; [right; split; auto; apply scan_frac_stop; auto|]. left. cbn [app scan_frac]. change (46 =? 46) with true.
  pose proof Hd as Hd'. apply digit_spec in Hd'. rewrite Hd'. cbn [andb]. rewrite app_comm_cons, span_all; auto.
  destruct rest; cbn; auto. destruct Hs; auto.
Qed.
Definition no_frac (s : str) : Prop := match s with [] => True | c :: _ => is_digit c = false /\ c <> 46 end.
Lemma scan_frac_any f rest : frac_text f -> no_frac rest -> scan_frac (f ++ rest) = (f, rest).
Proof.
  intros [|d r Hd Hr] Hs; cbn [app].
  - destruct rest as [|c [|d r]]; auto. destruct Hs as [_ H]. cbn [scan_frac]. replace (c =? 46) with false by lia. reflexivity.
  - cbn [scan_frac]. change (46 =? 46) with true.
    pose proof Hd as Hd'. apply digit_spec in Hd'. rewrite Hd'. cbn [andb]. rewrite app_comm_cons, span_all; auto.
    destruct rest; cbn; auto. destruct Hs; auto.
Qed.
Lemma scan_exp_any x rest : exp_text x -> stop rest -> scan_exp (x ++ rest) = (x, rest).
Proof.
  intros [|e s d r He Hs Hd Hr] Hst; [apply scan_exp_stop; auto|].
  assert (Hn : no_digit rest) by (destruct rest; cbn; auto; destruct Hst; auto).
  pose proof Hd as Hd'. apply digit_spec in Hd'.
  cbn [app scan_exp]. replace ((e =? 101) || (e =? 69)) with true by (cbn in He; lia).
  destruct Hs as [<-|[<-|[<-|[]]]]; cbn [app].
  - rewrite Hd'. rewrite app_comm_cons, span_all; auto.
  - change (is_digit 43) with false. change ((43 =? 43) || (43 =? 45)) with true. cbv iota. rewrite Hd'. rewrite app_comm_cons, span_all; auto.
  - change (is_digit 45) with false. change ((45 =? 43) || (45 =? 45)) with true. cbv iota. rewrite Hd'. rewrite app_comm_cons, span_all; auto.
Qed.
Lemma exp_no_frac x rest : exp_text x -> stop rest -> no_frac (x ++ rest).
Proof.
  intros [|e s d r He _ _ _] Hst; cbn [app].
  - destruct rest; cbn; auto. destruct Hst as (? & ? & _). auto.
  - cbn [no_frac]. cbn in He. unfold is_digit. lia.
Qed.
Lemma frac_no_digit f s : frac_text f -> no_frac s -> no_digit (f ++ s).
Proof. intros [|d r _ _] H; cbn [app]; [destruct s; cbn in *; intuition|reflexivity]. Qed.
Lemma scan_number_text t v rest : number_text t v -> stop rest -> scan_number (t ++ rest) = Ok (v, rest).
Proof.
  assert (K : forall neg i f x, int_text i -> frac_text f -> exp_text x -> stop rest ->
    scan_number (((if neg : bool then [45] else []) ++ i ++ f ++ x) ++ rest) =
    Ok (match f, x with [], [] => PInt (if neg then - decimal i else decimal i) | _, _ => PFloat ((if neg then [45] else []) ++ i ++ f ++ x) end, rest)).
  { intros neg i f x Hi Hf Hx Hs. unfold scan_number.
    match goal with |- match ?m with (_, _) => _ end = _ => assert (E : m = (neg, i ++ f ++ x ++ rest)) end.
    { destruct neg; cbn [app].
      - change (45 =? 45) with true. cbv iota. rewrite <- !app_assoc. reflexivity.
      - destruct (int_digits i Hi) as (_ & d & r & -> & Hd). unfold digit in Hd. cbn [app]. replace (d =? 45) with false by lia. rewrite <- !app_assoc. reflexivity. }
    rewrite E. clear E. rewrite scan_int_text by (auto; apply frac_no_digit, exp_no_frac; auto).
    rewrite scan_frac_any by (auto; apply exp_no_frac; auto). rewrite scan_exp_any by auto.
    rewrite digits_decimal by (apply int_digits; auto). destruct f, x; reflexivity. }
  intros [i Hi|i Hi|s i f x Hs Hi Hf Hx Hfx] Hst.
  - specialize (K false i [] [] Hi frac_none exp_none Hst). cbn [app] in K. rewrite !app_nil_r in K. exact K.
  - specialize (K true i [] [] Hi frac_none exp_none Hst). cbn [app] in K. rewrite !app_nil_r in K. exact K.
  - destruct Hs as [<-|[<-|[]]]; [specialize (K false i f x Hi Hf Hx Hst)|specialize (K true i f x Hi Hf Hx Hst)]; cbn [app] in K |- *; rewrite K;
      destruct f, x; try reflexivity; destruct Hfx; congruence.
Qed.
Lemma scan_frac_inv s f r : scan_frac s = (f, r) -> s = f ++ r /\ frac_text f.
Proof.
  destruct s as [|p [|d s]]; cbn [scan_frac]; try (intros H; inversion H; subst; split; auto; constructor).
  destruct ((p =? 46) && is_digit d) eqn:E; [|intros H; inversion H; subst; split; auto; constructor].
  apply andb_true_iff in E as [E1 E2]. assert (p = 46) by lia. subst p. destruct (span_digits (d :: s)) as [a b] eqn:Es.
  intros H. inversion H; subst. cbn [span_digits] in Es. rewrite E2 in Es. destruct (span_digits s) as [a' b'] eqn:Es'.
  inversion Es; subst. apply span_inv in Es' as [-> HF]. split; auto. constructor; auto. apply digit_spec. exact E2.
Qed.
Lemma scan_exp_inv s x r : scan_exp s = (x, r) -> s = x ++ r /\ exp_text x.
Proof.
  destruct s as [|e s]; cbn [scan_exp]; [intros H; inversion H; subst; split; auto; constructor|].
  destruct ((e =? 101) || (e =? 69)) eqn:Ee; [|intros H; inversion H; subst; split; auto; constructor].
  assert (He : In e [101; 69]) by (cbn; lia).
  destruct s as [|d s]; [intros H; inversion H; subst; split; auto; constructor|].
  destruct (is_digit d) eqn:Ed.
  - cbn [span_digits]. rewrite Ed. destruct (span_digits s) as [a b] eqn:Es. apply span_inv in Es as [-> HF].
    intros H. inversion H; subst. split; auto. apply (exp_some e []); auto; [left; auto|apply digit_spec; auto].
  - destruct ((d =? 43) || (d =? 45)) eqn:Es; [|intros H; inversion H; subst; split; auto; constructor].
    destruct s as [|d' s]; [intros H; inversion H; subst; split; auto; constructor|].
    destruct (is_digit d') eqn:Ed'; [|intros H; inversion H; subst; split; auto; constructor].
    cbn [span_digits]. rewrite Ed'. destruct (span_digits s) as [a b] eqn:Ea. apply span_inv in Ea as [-> HF].
    intros H. inversion H; subst. split; auto. apply (exp_some e [d]); auto; [|apply digit_spec; auto].
    right. assert (d = 43 \/ d = 45) as [-> | ->] by lia; [left|right; left]; auto.
Qed.
Lemma scan_int_inv s i r : scan_int s = Some (i, r) -> s = i ++ r /\ int_text i.
Proof.
  destruct s as [|c s]; cbn [scan_int]; [discriminate|]. destruct (c =? 48) eqn:E0.
  - intros H. inversion H; subst. split; [cbn; f_equal; lia|constructor].
  - destruct (is_digit c) eqn:E; [|discriminate]. cbn [span_digits]. rewrite E. destruct (span_digits s) as [a b] eqn:Es.
    apply span_inv in Es as [-> HF]. intros H. inversion H; subst. split; auto. constructor; auto; [apply digit_spec; auto|lia].
Qed.
Lemma scan_number_inv s v r : scan_number s = Ok (v, r) -> exists t, s = t ++ r /\ number_text t v.
Proof.
  unfold scan_number. intros H.
  match type of H with match ?m with (_, _) => _ end = _ => destruct m as [neg s1] eqn:En end.
  assert (Es : s = (if neg : bool then [45] else []) ++ s1).
  { destruct s as [|c s]; [inversion En; reflexivity|]. destruct (c =? 45) eqn:Ec; inversion En; subst; cbn; auto. f_equal. lia. }
  clear En. destruct (scan_int s1) as [[i s2]|] eqn:E1; [|discriminate]. apply scan_int_inv in E1 as [-> Hi].
  destruct (scan_frac s2) as [f s3] eqn:E2. apply scan_frac_inv in E2 as [-> Hf].
  destruct (scan_exp s3) as [x s4] eqn:E3. apply scan_exp_inv in E3 as [-> Hx].
  exists ((if neg : bool then [45] else []) ++ i ++ f ++ x). split.
  - destruct f, x; inversion H; subst; rewrite <- !app_assoc; reflexivity.
  - pose proof (digits_decimal i (proj1 (int_digits i Hi))) as Hd.
    destruct f as [|f1 f]; [destruct x as [|x1 x]|].
    + inversion H; subst. rewrite Hd. rewrite !app_nil_r. destruct neg; cbn [app]; constructor; auto.
    + inversion H; subst. apply num_float; auto; [destruct neg; cbn; auto|right; discriminate].
    + inversion H; subst. apply num_float; auto; [destruct neg; cbn; auto|left; discriminate].
Qed.

(** ** Values *)
Lemma ws_spec c : is_ws c = true <-> In c [32; 9; 10; 13].
Proof. unfold is_ws. cbn [In]. lia. Qed.
Lemma skip_ws_app w t : ws w -> skip_ws (w ++ t) = skip_ws t.
Proof. induction 1 as [|c w Hc H IH]; cbn [app skip_ws]; auto. apply ws_spec in Hc. rewrite Hc. exact IH. Qed.
Lemma skip_ws_inv s : exists w, s = w ++ skip_ws s /\ ws w.
Proof.
  induction s as [|c s (w & E & H)]; cbn [skip_ws]; [exists []; split; auto; constructor|].
  destruct (is_ws c) eqn:Ec; [|exists []; split; auto; constructor].
  exists (c :: w). split; [cbn; congruence|]. constructor; auto. apply ws_spec. exact Ec.
Qed.
Lemma skip_ws_head c t : is_ws c = false -> skip_ws (c :: t) = c :: t.
Proof. intros H. cbn [skip_ws]. rewrite H. reflexivity. Qed.
Lemma stop_ws w rest : ws w -> stop rest -> stop (w ++ rest).
Proof. intros [|c t Hc H] Hr; cbn [app]; auto. unfold stop, is_digit. cbn [In] in Hc. lia. Qed.
Lemma stop_c c r : In c [44; 93; 125] -> stop (c :: r).
Proof. cbn [In stop]. unfold is_digit. lia. Qed.

(** The first character of a value *)
Definition starts (c : N) : Prop := is_ws c = false /\ c <> 93 /\ c <> 125 /\ c < 128.
Lemma number_head t v : number_text t v -> exists c r, t = c :: r /\ (digit c \/ (c = 45 /\ exists d r', r = d :: r' /\ digit d)).
Proof.
  intros [i Hi|i Hi|s i f x Hs Hi _ _ _]; destruct (int_digits i Hi) as (_ & d & r & -> & Hd).
  - exists d, r. auto.
  - exists 45, (d :: r). eauto 10.
  - destruct Hs as [<-|[<-|[]]]; cbn [app]; [exists d; eauto|exists 45; eauto 10].
Qed.
Lemma value_head ext t v : value_text ext t v -> exists c r, t = c :: r /\ starts c.
Proof.
  intros H. assert (K : forall s, match lit s with [] => False | c :: _ => starts c end -> exists c r, lit s = c :: r /\ starts c).
  { intros s Hs. destruct (lit s); [destruct Hs|eauto]. }
  destruct H as [| | |t _ H|t v H| | | | |].
  - apply (K "null"%string). cbv. repeat split; congruence.
  - apply (K "true"%string). cbv. repeat split; congruence.
  - apply (K "false"%string). cbv. repeat split; congruence.
  - destruct H as [<-|[<-|[<-|[]]]]; apply K; cbv; repeat split; congruence.
  - apply number_head in H as (c & r & -> & Hc). exists c, r. split; auto.
    unfold starts, is_ws, digit in *. destruct Hc as [Hc|[-> _]]; [|repeat split; lia]. repeat split; lia.
  - do 2 eexists. split; [reflexivity|]. cbv. repeat split; congruence.
  - do 2 eexists. split; [reflexivity|]. cbv. repeat split; congruence.
  - do 2 eexists. split; [reflexivity|]. cbv. repeat split; congruence.
  - do 2 eexists. split; [reflexivity|]. cbv. repeat split; congruence.
  - do 2 eexists. split; [reflexivity|]. cbv. repeat split; congruence.
Qed.

Lemma strip_self p s : strip_prefix p (p ++ s) = Some s.
Proof. induction p as [|c p IH]; cbn [app strip_prefix]; auto. rewrite N.eqb_refl. exact IH. Qed.
Lemma strip_inv p s t : strip_prefix p s = Some t -> s = p ++ t.
Proof.
  revert s. induction p as [|c p IH]; intros s H; cbn [strip_prefix] in H; [inversion H; reflexivity|].
  destruct s as [|d s]; [discriminate|]. destruct (c =? d) eqn:E; [|discriminate]. cbn [app]. f_equal; [lia|]. apply IH. exact H.
Qed.
Lemma strip_not c p s d : c <> d -> strip_prefix (c :: p) (d :: s) = None.
Proof. intros H. cbn [strip_prefix]. replace (c =? d) with false by lia. reflexivity. Qed.

Scheme value_mut := Minimality for value_text Sort Prop
  with elements_mut := Minimality for elements_text Sort Prop
  with members_mut := Minimality for members_text Sort Prop.
Combined Scheme text_mut from value_mut, elements_mut, members_mut.

Definition reads_value (t : list N) (v : pyval) : Prop :=
  forall n rest, (length (t ++ rest) < n)%nat -> stop rest -> pval n (t ++ rest) = Ok (v, rest).
Definition reads_elements (t : list N) (l : list pyval) : Prop :=
  (exists c r, skip_ws (t ++ [93]) = c :: r /\ starts c) /\
  forall n m rest, (length (t ++ 93%N :: rest) < n)%nat -> (length (t ++ 93%N :: rest) <= m)%nat -> elems (pval n) m (skip_ws (t ++ 93 :: rest)) = Ok (l, rest).
Definition reads_members (t : list N) (l : list (str * pyval)) : Prop :=
  (exists r, skip_ws (t ++ [125]) = 34 :: r) /\
  forall n m rest, (length (t ++ 125%N :: rest) < n)%nat -> (length (t ++ 125%N :: rest) <= m)%nat -> members (pval n) m (skip_ws (t ++ 125 :: rest)) = Ok (l, rest).

Lemma skip_ws_starts w t rest c r : ws w -> t = c :: r -> starts c -> skip_ws (w ++ t ++ rest) = t ++ rest.
Proof. intros Hw -> (Hc & _). rewrite skip_ws_app by auto. cbn [app]. apply skip_ws_head. exact Hc. Qed.
Lemma skip_more s x rest c r : skip_ws (s ++ [x]) = c :: r -> is_ws c = false -> In x [93; 125] -> skip_ws (s ++ x :: rest) = (c :: r) ++ rest.
Proof.
  revert c r. induction s as [|d s IH]; intros c r H Hc Hx; cbn [app skip_ws] in *.
  - assert (Hw : is_ws x = false) by (unfold is_ws; cbn [In] in Hx; lia). rewrite Hw in *. inversion H; subst. reflexivity.
  - destruct (is_ws d) eqn:Ed; [apply IH; auto|]. inversion H; subst. cbn [app]. rewrite <- app_assoc. reflexivity.
Qed.

Lemma reads ext :
  (forall t v, value_text ext t v -> reads_value t v) /\ (forall t l, elements_text ext t l -> reads_elements t l) /\ (forall t l, members_text ext t l -> reads_members t l).
Proof.
  apply text_mut.
  - intros n rest Hn _. destruct n as [|n]; [lia|]. cbn [pval]. rewrite chars_lit. change (lit "null") with (110 :: lit "ull"). cbn [app].
    change (110 =? 34) with false. change (110 =? 123) with false. change (110 =? 91) with false. cbv iota.
    change (110 :: lit "ull" ++ rest) with (lit "null" ++ rest). rewrite strip_self. reflexivity.
  - intros n rest Hn _. destruct n as [|n]; [lia|]. cbn [pval]. rewrite chars_lit. change (lit "true") with (116 :: lit "rue"). cbn [app].
    change (116 =? 34) with false. change (116 =? 123) with false. change (116 =? 91) with false. cbv iota.
    change (lit "null") with (110 :: lit "ull"). rewrite strip_not by lia.
    change (116 :: lit "rue" ++ rest) with ((116 :: lit "rue") ++ rest). rewrite strip_self. reflexivity.
  - intros n rest Hn _. destruct n as [|n]; [lia|]. cbn [pval]. rewrite chars_lit. change (lit "false") with (102 :: lit "alse"). cbn [app].
    change (102 =? 34) with false. change (102 =? 123) with false. change (102 =? 91) with false. cbv iota.
    change (lit "null") with (110 :: lit "ull"). rewrite strip_not by lia. change (lit "true") with (116 :: lit "rue"). rewrite strip_not by lia.
    change (102 :: lit "alse" ++ rest) with ((102 :: lit "alse") ++ rest). rewrite strip_self. reflexivity.
  - intros t _ Ht n rest Hn _. destruct n as [|n]; [lia|]. cbn [pval].
    destruct Ht as [<-|[<-|[<-|[]]]]; rewrite chars_lit.
    + change (lit "NaN") with (78 :: lit "aN"). cbn [app].
      change (78 =? 34) with false. change (78 =? 123) with false. change (78 =? 91) with false. cbv iota.
      change (lit "null") with (110 :: lit "ull"). rewrite strip_not by lia. change (lit "true") with (116 :: lit "rue"). rewrite strip_not by lia.
      change (lit "false") with (102 :: lit "alse"). rewrite strip_not by lia.
      change (78 :: lit "aN" ++ rest) with ((78 :: lit "aN") ++ rest). rewrite strip_self. reflexivity.
    + change (lit "Infinity") with (73 :: lit "nfinity"). cbn [app].
      change (73 =? 34) with false. change (73 =? 123) with false. change (73 =? 91) with false. cbv iota.
      change (lit "null") with (110 :: lit "ull"). rewrite strip_not by lia. change (lit "true") with (116 :: lit "rue"). rewrite strip_not by lia.
      change (lit "false") with (102 :: lit "alse"). rewrite strip_not by lia. change (lit "NaN") with (78 :: lit "aN"). rewrite strip_not by lia.
      change (73 :: lit "nfinity" ++ rest) with ((73 :: lit "nfinity") ++ rest). rewrite strip_self. reflexivity.
    + change (lit "-Infinity") with (45 :: lit "Infinity"). cbn [app].
      change (45 =? 34) with false. change (45 =? 123) with false. change (45 =? 91) with false. cbv iota.
      change (lit "null") with (110 :: lit "ull"). rewrite strip_not by lia. change (lit "true") with (116 :: lit "rue"). rewrite strip_not by lia.
      change (lit "false") with (102 :: lit "alse"). rewrite strip_not by lia. change (lit "NaN") with (78 :: lit "aN"). rewrite strip_not by lia.
      replace (strip_prefix (lit "Infinity") (45 :: lit "Infinity" ++ rest)) with (@None str) by reflexivity.
      change (45 :: lit "Infinity" ++ rest) with ((45 :: lit "Infinity") ++ rest). rewrite strip_self. reflexivity.
  - intros t v Ht n rest Hn Hs. pose proof (scan_number_text t v rest Ht Hs) as K. apply number_head in Ht as (c & r & -> & Hc).
    destruct n as [|n]; [lia|]. cbn [pval app]. cbn [app] in K. unfold digit in Hc.
    replace (c =? 34) with false by lia. replace (c =? 123) with false by lia. replace (c =? 91) with false by lia.
    change (lit "null") with (110 :: lit "ull"). rewrite strip_not by lia. change (lit "true") with (116 :: lit "rue"). rewrite strip_not by lia.
    change (lit "false") with (102 :: lit "alse"). rewrite strip_not by lia. change (lit "NaN") with (78 :: lit "aN"). rewrite strip_not by lia.
    change (lit "Infinity") with (73 :: lit "nfinity"). rewrite strip_not by lia.
    destruct Hc as [Hc|[-> (d & r' & -> & Hd)]].
    + change (lit "-Infinity") with (45 :: 73 :: lit "nfinity"). rewrite strip_not by lia. exact K.
    + change (lit "-Infinity") with (45 :: 73 :: lit "nfinity"). cbn [app strip_prefix]. change (45 =? 45) with true. replace (73 =? d) with false by lia. exact K.
  - intros t s Ht n rest Hn _. destruct n as [|n]; [lia|]. cbn [pval app]. change (34 =? 34) with true. cbv iota.
    rewrite <- app_assoc. cbn [app]. rewrite (scan_string _ _ _ Ht). reflexivity.
  - intros w Hw n rest Hn _. destruct n as [|n]; [lia|]. cbn [pval app]. change (91 =? 34) with false. change (91 =? 123) with false. change (91 =? 91) with true. cbv iota.
    rewrite <- app_assoc, skip_ws_app by auto. cbn [app skip_ws]. change (is_ws 93) with false. cbv iota. change (93 =? 93) with true. reflexivity.
  - intros t l _ [(c & r & Hh & Hc) IH] n rest Hn _. destruct n as [|n]; [lia|]. cbn [pval app]. change (91 =? 34) with false. change (91 =? 123) with false. change (91 =? 91) with true. cbv iota.
    rewrite <- app_assoc. cbn [app]. cbn [app length] in Hn. rewrite <- app_assoc in Hn. cbn [app] in Hn.
    specialize (IH n n rest ltac:(lia) ltac:(lia)).
    rewrite (skip_more t 93 rest c r Hh (proj1 Hc) ltac:(cbn; auto)) in *. cbn [app] in *.
    destruct Hc as (_ & Hc & _). replace (c =? 93) with false by lia. rewrite IH. reflexivity.
  - intros w Hw n rest Hn _. destruct n as [|n]; [lia|]. cbn [pval app]. change (123 =? 34) with false. change (123 =? 123) with true. cbv iota.
    rewrite <- app_assoc, skip_ws_app by auto. cbn [app skip_ws]. change (is_ws 125) with false. cbv iota. change (125 =? 125) with true. reflexivity.
  - intros t l _ [(r & Hh) IH] n rest Hn _. destruct n as [|n]; [lia|]. cbn [pval app]. change (123 =? 34) with false. change (123 =? 123) with true. cbv iota.
    rewrite <- app_assoc. cbn [app]. cbn [app length] in Hn. rewrite <- app_assoc in Hn. cbn [app] in Hn.
    specialize (IH n n rest ltac:(lia) ltac:(lia)).
    rewrite (skip_more t 125 rest 34 r Hh eq_refl ltac:(cbn; auto)) in *. cbn [app] in *.
    change (34 =? 125) with false. cbv iota. rewrite IH. cbn [rbind]. rewrite merged_dict. reflexivity.
  - intros w t v w' Hw Ht IH Hw'. destruct (value_head _ _ _ Ht) as (c & r & Et & Hc). split.
    { exists c, (r ++ w' ++ [93]). split; auto. rewrite <- !app_assoc, (skip_ws_starts w t (w' ++ [93]) c r) by auto. rewrite Et. reflexivity. }
    intros n m rest Hn Hm. repeat rewrite <- app_assoc in *. rewrite (skip_ws_starts w t (w' ++ 93 :: rest) c r) by auto.
    destruct m as [|m]; [rewrite !app_length in Hm; rewrite Et in Hm; cbn in Hm; lia|]. cbn [elems].
    rewrite IH; [|rewrite !app_length in *; lia|apply stop_ws; auto; apply stop_c; cbn; auto]. cbn [rbind].
    rewrite skip_ws_app by auto. rewrite skip_ws_head by reflexivity. change (93 =? 93) with true. reflexivity.
  - intros w t v w' r0 l Hw Ht IH Hw' Hr [(c0 & q0 & Hh & Hc0) IHr]. destruct (value_head _ _ _ Ht) as (c & r & Et & Hc). split.
    { exists c, (r ++ w' ++ 44 :: r0 ++ [93]). split; auto. repeat (rewrite <- ?app_assoc; cbn [app]). rewrite (skip_ws_starts w t (w' ++ 44 :: r0 ++ [93]) c r) by auto. rewrite Et. reflexivity. }
    intros n m rest Hn Hm. replace ((w ++ t ++ w' ++ 44 :: r0) ++ 93 :: rest) with (w ++ t ++ w' ++ 44 :: r0 ++ 93 :: rest) in * by (repeat (rewrite <- ?app_assoc; cbn [app]); reflexivity).
    rewrite (skip_ws_starts w t (w' ++ 44 :: r0 ++ 93 :: rest) c r) by auto.
    destruct m as [|m]; [rewrite !app_length in Hm; rewrite Et in Hm; cbn in Hm; lia|]. cbn [elems].
    assert (L : (length (r0 ++ 93%N :: rest) < length (w ++ t ++ w' ++ 44%N :: r0 ++ 93%N :: rest))%nat).
    { rewrite (app_length w), (app_length t), (app_length w'). cbn [length]. lia. }
    rewrite IH; [|rewrite (app_length w) in Hn; lia|apply stop_ws; auto; apply stop_c; cbn; auto]. cbn [rbind].
    rewrite skip_ws_app by auto. rewrite skip_ws_head by reflexivity. change (44 =? 93) with false. change (44 =? 44) with true. cbv iota.
    rewrite IHr by lia. reflexivity.
  - intros w k nm w1 w2 t v w' Hw Hk Hw1 Hw2 Ht IH Hw'. destruct (value_head _ _ _ Ht) as (c & r & Et & Hc).
    assert (N34 : is_ws 34 = false) by reflexivity. split.
    { eexists. rewrite <- app_assoc. cbn [app]. rewrite skip_ws_app, skip_ws_head by auto. reflexivity. }
    intros n m rest Hn Hm.
    replace ((w ++ 34 :: k ++ 34 :: w1 ++ 58 :: w2 ++ t ++ w') ++ 125 :: rest) with (w ++ 34 :: k ++ 34 :: w1 ++ 58 :: w2 ++ t ++ w' ++ 125 :: rest) in * by (repeat (rewrite <- ?app_assoc; cbn [app]); reflexivity).
    rewrite skip_ws_app, skip_ws_head by auto. rewrite (app_length w) in *. cbn [length] in Hn, Hm. rewrite (app_length k) in *. cbn [length] in Hn, Hm. rewrite (app_length w1) in *. cbn [length] in Hn, Hm. rewrite (app_length w2) in *.
    destruct m as [|m]; [lia|]. cbn [members]. change (34 =? 34) with true. cbv iota. rewrite (scan_string _ _ _ Hk). cbn [rbind].
    rewrite skip_ws_app by auto. rewrite skip_ws_head by reflexivity. change (58 =? 58) with true. cbv iota.
    rewrite (skip_ws_starts w2 t (w' ++ 125 :: rest) c r) by auto.
    rewrite IH; [|lia|apply stop_ws; auto; apply stop_c; cbn; auto]. cbn [rbind].
    rewrite skip_ws_app by auto. rewrite skip_ws_head by reflexivity. change (125 =? 125) with true. reflexivity.
  - intros w k nm w1 w2 t v w' r0 l Hw Hk Hw1 Hw2 Ht IH Hw' Hr [_ IHr]. destruct (value_head _ _ _ Ht) as (c & r & Et & Hc).
    assert (N34 : is_ws 34 = false) by reflexivity. split.
    { eexists. rewrite <- app_assoc. cbn [app]. rewrite skip_ws_app, skip_ws_head by auto. reflexivity. }
    intros n m rest Hn Hm.
    replace ((w ++ 34 :: k ++ 34 :: w1 ++ 58 :: w2 ++ t ++ w' ++ 44 :: r0) ++ 125 :: rest) with (w ++ 34 :: k ++ 34 :: w1 ++ 58 :: w2 ++ t ++ w' ++ 44 :: r0 ++ 125 :: rest) in * by (repeat (rewrite <- ?app_assoc; cbn [app]); reflexivity).
    rewrite skip_ws_app, skip_ws_head by auto. rewrite (app_length w) in *. cbn [length] in Hn, Hm. rewrite (app_length k) in *. cbn [length] in Hn, Hm. rewrite (app_length w1) in *. cbn [length] in Hn, Hm. rewrite (app_length w2) in *.
    destruct m as [|m]; [lia|]. cbn [members]. change (34 =? 34) with true. cbv iota. rewrite (scan_string _ _ _ Hk). cbn [rbind].
    rewrite skip_ws_app by auto. rewrite skip_ws_head by reflexivity. change (58 =? 58) with true. cbv iota.
    rewrite (skip_ws_starts w2 t (w' ++ 44 :: r0 ++ 125 :: rest) c r) by auto.
    rewrite IH; [|lia|apply stop_ws; auto; apply stop_c; cbn; auto]. cbn [rbind].
    rewrite skip_ws_app by auto. rewrite skip_ws_head by reflexivity. change (44 =? 125) with false. change (44 =? 44) with true. cbv iota.
    rewrite (app_length t), (app_length w') in *. cbn [length] in Hn, Hm. rewrite IHr by lia. reflexivity.
Qed.

(** Soundness *)
Lemma elems_inv n : (forall s v r, pval n s = Ok (v, r) -> exists t, s = t ++ r /\ value_text true t v) ->
  forall m s l r, elems (pval n) m s = Ok (l, r) -> exists t, s = t ++ 93 :: r /\ elements_text true t l.
Proof.
  intros IH. induction m as [|m IHm]; intros s l r; cbn [elems]; [discriminate|].
  destruct (pval n s) as [[v s1]|] eqn:Ev; cbn [rbind]; [|discriminate]. apply IH in Ev as (t & -> & Ht).
  destruct (skip_ws_inv s1) as (w & Ew & Hw). destruct (skip_ws s1) as [|c s2]; [discriminate|].
  destruct (c =? 93) eqn:E1.
  - intros H. inversion H; subst. exists ([] ++ t ++ w). split.
    + cbn [app]. rewrite <- app_assoc. do 3 f_equal. lia.
    + apply et_last; auto. constructor.
  - destruct (c =? 44) eqn:E2; [|discriminate].
    destruct (elems (pval n) m (skip_ws s2)) as [[vs z]|] eqn:Es; cbn [rbind]; [|discriminate]. intros H. inversion H; subst.
    apply IHm in Es as (t' & E & Ht'). destruct (skip_ws_inv s2) as (w2 & Ew2 & Hw2).
    exists ([] ++ t ++ w ++ 44 :: w2 ++ t'). split.
    + assert (c = 44) by lia. subst c. cbn [app]. repeat (rewrite <- ?app_assoc; cbn [app]). rewrite <- E, <- Ew2. reflexivity.
    + apply et_more; auto; [constructor|]. inversion Ht'; subst.
      * rewrite !app_assoc. rewrite <- (app_assoc (w2 ++ w0)). constructor; auto. apply Forall_app; auto.
      * rewrite !app_assoc. rewrite <- !(app_assoc (w2 ++ w0)). rewrite <- !app_assoc. rewrite app_assoc. constructor; auto. apply Forall_app; auto.
Qed.
Lemma members_ws w t l : ws w -> members_text true t l -> members_text true (w ++ t) l.
Proof. intros Hw H. inversion H; subst; rewrite app_assoc; constructor; auto; apply Forall_app; auto. Qed.
Lemma members_inv n : (forall s v r, pval n s = Ok (v, r) -> exists t, s = t ++ r /\ value_text true t v) ->
  forall m s l r, members (pval n) m s = Ok (l, r) -> exists t, s = t ++ 125 :: r /\ members_text true t l.
Proof.
  intros IH. induction m as [|m IHm]; intros s l r; cbn [members]; [discriminate|].
  destruct s as [|q s0]; [discriminate|]. destruct (q =? 34) eqn:Eq; [|discriminate]. assert (q = 34) by lia. subst q.
  destruct (scan_str s0) as [[k r0]|] eqn:Ek; cbn [rbind]; [|discriminate]. apply scan_string_inv in Ek as (kt & -> & Hk).
  destruct (skip_ws_inv r0) as (w1 & Ew1 & Hw1). destruct (skip_ws r0) as [|c r1]; [discriminate|].
  destruct (c =? 58) eqn:Ec; [|discriminate]. assert (c = 58) by lia. subst c.
  destruct (skip_ws_inv r1) as (w2 & Ew2 & Hw2).
  destruct (pval n (skip_ws r1)) as [[v s1]|] eqn:Ev; cbn [rbind]; [|discriminate]. apply IH in Ev as (t & Et & Ht). rewrite Et in Ew2.
  destruct (skip_ws_inv s1) as (w & Ew & Hw). destruct (skip_ws s1) as [|c s2]; [discriminate|].
  destruct (c =? 125) eqn:E1.
  - assert (c = 125) by lia. subst c. intros H'. assert (l = [(k, v)] /\ s2 = r) as [-> ->] by (split; congruence). exists ([] ++ 34 :: kt ++ 34 :: w1 ++ 58 :: w2 ++ t ++ w). split.
    + rewrite Ew1, Ew2, Ew. cbn [app]. repeat (rewrite <- ?app_assoc; cbn [app]). reflexivity.
    + apply mt_last; auto. constructor.
  - destruct (c =? 44) eqn:E2; [|discriminate]. assert (c = 44) by lia. subst c.
    destruct (members (pval n) m (skip_ws s2)) as [[vs z]|] eqn:Es; cbn [rbind]; [|discriminate]. intros H. assert (l = (k, v) :: vs /\ z = r) as [-> ->] by (split; congruence).
    apply IHm in Es as (t' & E & Ht'). destruct (skip_ws_inv s2) as (w3 & Ew3 & Hw3).
    exists ([] ++ 34 :: kt ++ 34 :: w1 ++ 58 :: w2 ++ t ++ w ++ 44 :: w3 ++ t'). split.
    + rewrite Ew1, Ew2, Ew. cbn [app]. repeat (rewrite <- ?app_assoc; cbn [app]). rewrite <- E, <- Ew3. reflexivity.
    + apply mt_more; auto; [constructor|]. apply members_ws; auto.
Qed.
Lemma pval_inv n : forall s v r, pval n s = Ok (v, r) -> exists t, s = t ++ r /\ value_text true t v.
Proof.
  induction n as [|n IH]; intros s v r; [discriminate|]. destruct s as [|c s]; [discriminate|]. cbn [pval].
  destruct (c =? 34) eqn:E1.
  { assert (c = 34) by lia. subst c. destruct (scan_str s) as [[x t]|] eqn:Ex; cbn [rbind]; [|discriminate]. intros H. inversion H; subst.
    apply scan_string_inv in Ex as (kt & -> & Hk). exists (34 :: kt ++ [34]). split; [cbn [app]; rewrite <- app_assoc; reflexivity|apply vt_string; auto]. }
  destruct (c =? 123) eqn:E2.
  { assert (c = 123) by lia. subst c. destruct (skip_ws_inv s) as (w & Ew & Hw). destruct (skip_ws s) as [|c' s'] eqn:Es; [discriminate|].
    destruct (c' =? 125) eqn:E3.
    - assert (c' = 125) by lia. subst c'. intros H. inversion H; subst. exists (123 :: w ++ [125]). split; [cbn [app]; rewrite <- app_assoc; reflexivity|apply vt_object0; auto].
    - rewrite <- Es in *. destruct (members (pval n) n (skip_ws s)) as [[l z]|] eqn:Em; cbn [rbind]; [|discriminate]. intros H. inversion H; subst.
      apply (members_inv n IH) in Em as (t & E & Ht). exists (123 :: (w ++ t) ++ [125]). split.
      + cbn [app]. rewrite <- !app_assoc. cbn [app]. rewrite <- E, <- Ew. reflexivity.
      + rewrite merged_dict. apply vt_object. apply members_ws; auto. }
  destruct (c =? 91) eqn:E3.
  { assert (c = 91) by lia. subst c. destruct (skip_ws_inv s) as (w & Ew & Hw). destruct (skip_ws s) as [|c' s'] eqn:Es; [discriminate|].
    destruct (c' =? 93) eqn:E4.
    - assert (c' = 93) by lia. subst c'. intros H. inversion H; subst. exists (91 :: w ++ [93]). split; [cbn [app]; rewrite <- app_assoc; reflexivity|apply vt_array0; auto].
    - rewrite <- Es in *. destruct (elems (pval n) n (skip_ws s)) as [[l z]|] eqn:Em; cbn [rbind]; [|discriminate]. intros H. inversion H; subst.
      apply (elems_inv n IH) in Em as (t & E & Ht). exists (91 :: (w ++ t) ++ [93]). split.
      + cbn [app]. rewrite <- !app_assoc. cbn [app]. rewrite <- E, <- Ew. reflexivity.
      + apply vt_array. inversion Ht; subst; rewrite app_assoc; constructor; auto; apply Forall_app; auto. }
  destruct (strip_prefix (lit "null") (c :: s)) as [t|] eqn:P1.
  { apply strip_inv in P1. intros H. inversion H; subst v t. exists (chars "null"). split; [rewrite chars_lit; exact P1|constructor]. }
  destruct (strip_prefix (lit "true") (c :: s)) as [t|] eqn:P2.
  { apply strip_inv in P2. intros H. inversion H; subst v t. exists (chars "true"). split; [rewrite chars_lit; exact P2|constructor]. }
  destruct (strip_prefix (lit "false") (c :: s)) as [t|] eqn:P3.
  { apply strip_inv in P3. intros H. inversion H; subst v t. exists (chars "false"). split; [rewrite chars_lit; exact P3|constructor]. }
  destruct (strip_prefix (lit "NaN") (c :: s)) as [t|] eqn:P4.
  { apply strip_inv in P4. intros H. assert (v = PFloat (lit "NaN") /\ t = r) as [-> ->] by (split; congruence). clear H.
    exists (chars "NaN"). split; [rewrite chars_lit; exact P4|]. change (lit "NaN") with (chars "NaN"). apply vt_other; auto. left; auto. }
  destruct (strip_prefix (lit "Infinity") (c :: s)) as [t|] eqn:P5.
  { apply strip_inv in P5. intros H. assert (v = PFloat (lit "Infinity") /\ t = r) as [-> ->] by (split; congruence). clear H.
    exists (chars "Infinity"). split; [rewrite chars_lit; exact P5|]. change (lit "Infinity") with (chars "Infinity"). apply vt_other; auto. right; left; auto. }
  destruct (strip_prefix (lit "-Infinity") (c :: s)) as [t|] eqn:P6.
  { apply strip_inv in P6. intros H. assert (v = PFloat (lit "-Infinity") /\ t = r) as [-> ->] by (split; congruence). clear H.
    exists (chars "-Infinity"). split; [rewrite chars_lit; exact P6|]. change (lit "-Infinity") with (chars "-Infinity"). apply vt_other; auto. right; right; left; auto. }
  intros H. apply scan_number_inv in H as (t & E & Ht). exists t. split; auto. apply vt_number; auto.
Qed.

Lemma ws_all w : ws w -> skip_ws w = [].
Proof. intros H. rewrite <- (app_nil_r w), skip_ws_app by auto. reflexivity. Qed.
Lemma loads_complete ext s v : json_text ext s v -> loads s = Ok v.
Proof.
  intros [w t v' w' Hw Ht Hw']. destruct (value_head _ _ _ Ht) as (c & r & Et & Hc).
  assert (K : forall x, x = w ++ t ++ w' -> (let! (v, r) := pval (S (length x)) (skip_ws x) in match skip_ws r with [] => Ok v | _ => Err JSONDecodeError end) = Ok v').
  { intros x ->. rewrite (skip_ws_starts w t w' c r) by auto. rewrite (proj1 (reads ext) t v' Ht).
    - cbn [rbind]. rewrite ws_all by auto. reflexivity.
    - rewrite (app_length w). lia.
    - rewrite <- (app_nil_r w'). apply stop_ws; auto. constructor. }
  unfold loads. remember (w ++ t ++ w') as y eqn:Es. destruct y as [|x y].
  - destruct w; [rewrite Et in Es|]; discriminate.
  - replace (x =? 65279) with false; [apply K; reflexivity|].
    destruct Hw as [|z w Hy Hw]; cbn [app] in Es.
    + rewrite Et in Es. cbn [app] in Es. inversion Es; subst. destruct Hc as (_ & _ & _ & Hc). lia.
    + inversion Es; subst. cbn [In] in Hy. lia.
Qed.
Lemma loads_sound s v : loads s = Ok v -> json_text true s v.
Proof.
  unfold loads. destruct s as [|c s]; [discriminate|]. destruct (c =? 65279); [discriminate|]. set (x := c :: s). clearbody x. clear c s.
  destruct (skip_ws_inv x) as (w & Ew & Hw). destruct (pval (S (length x)) (skip_ws x)) as [[v' r]|] eqn:E; cbn [rbind]; [|discriminate].
  destruct (skip_ws r) eqn:Er; [|discriminate]. intros H. inversion H; subst v'. apply pval_inv in E as (t & Et & Ht).
  destruct (skip_ws_inv r) as (w' & Ew' & Hw'). rewrite Er, app_nil_r in Ew'. subst r. rewrite Et in Ew. rewrite Ew. constructor; auto.
Qed.
Lemma loads_iff s v : loads s = Ok v <-> json_text true s v.
Proof. split; [apply loads_sound|apply loads_complete]. Qed.
Lemma strict_ext_string t v : string_text false t v -> string_text true t v.
Proof. induction 1; [constructor|constructor|constructor|apply st_unicode|apply st_pair|discriminate]; auto. Qed.
Lemma strict_ext :
  (forall t v, value_text false t v -> value_text true t v) /\ (forall t l, elements_text false t l -> elements_text true t l) /\ (forall t l, members_text false t l -> members_text true t l).
Proof.
  apply text_mut; intros; try (econstructor; eauto using strict_ext_string; fail).
Qed.

(** What [dumps] writes is RFC 8259 text *)
Lemma hex_ctrl_in x : x < 16 -> In (hexdig x, x) hex_digits.
Proof.
  intros H. assert (F : forallb (fun x => existsb (fun p => (fst p =? hexdig x) && (snd p =? x)) hex_digits) (map N.of_nat (seq 0 16)) = true) by (vm_compute; reflexivity).
  rewrite forallb_forall in F. specialize (F x). rewrite existsb_exists in F. destruct F as ([a b] & Hi & E).
  { apply in_map_iff. exists (N.to_nat x). split; [lia|]. apply in_seq. lia. }
  cbn [fst snd] in E. replace (hexdig x, x) with (a, b); auto. f_equal; lia.
Qed.
Lemma esc1_text c t v : string_text false t v -> string_text false (esc1 c ++ t) (c :: v).
Proof.
  intros H. unfold esc1.
  destruct (N.eqb_spec c 34) as [->|]; [apply (st_escape _ 34); cbn; auto 10|].
  destruct (N.eqb_spec c 92) as [->|]; [apply (st_escape _ 92); cbn; auto 10|].
  destruct (N.eqb_spec c 10) as [->|]; [apply (st_escape _ 110); cbn; auto 10|].
  destruct (N.eqb_spec c 13) as [->|]; [apply (st_escape _ 114); cbn; auto 10|].
  destruct (N.eqb_spec c 9) as [->|]; [apply (st_escape _ 116); cbn; auto 10|].
  destruct (N.eqb_spec c 12) as [->|]; [apply (st_escape _ 102); cbn; auto 10|].
  destruct (N.eqb_spec c 8) as [->|]; [apply (st_escape _ 98); cbn; auto 10|].
  destruct (c <? 32) eqn:E.
  - change ([92; 117; 48; 48; hexdig (c / 16); hexdig (c mod 16)] ++ t) with (92 :: 117 :: [48; 48; hexdig (c / 16); hexdig (c mod 16)] ++ t).
    apply st_unicode; auto; unfold high, low; try lia.
    exists 48, 48, (hexdig (c / 16)), (hexdig (c mod 16)), 0, 0, (c / 16), (c mod 16). split; [reflexivity|].
    split; [left; reflexivity|]. split; [left; reflexivity|]. split; [apply hex_ctrl_in; lia|]. split; [apply hex_ctrl_in; lia|]. lia.
  - cbn [app]. apply st_plain; auto. lia.
Qed.
Lemma esc_text s : string_text false (flat_map esc1 s) s.
Proof. induction s as [|c s IH]; cbn [flat_map]; [constructor|]. apply esc1_text. exact IH. Qed.
Lemma digit_strs s : digit_str s -> Forall digit s.
Proof. apply Forall_impl. intros c. apply digit_spec. Qed.
Lemma dec_int n : int_text (dec_N n).
Proof.
  destruct (dec_N_spec n) as (H1 & _ & H3). destruct (n =? 0); [rewrite H3; constructor|].
  destruct H3 as (d & r & E & Hd). apply digit_strs in H1. rewrite E in *. inversion H1; subst. constructor; auto.
Qed.
Lemma dec_number z : number_text (dec_Z z) (PInt z).
Proof.
  destruct z as [|p|p]; cbn [dec_Z].
  - apply (num_pos [48]). constructor.
  - destruct (dec_N_spec (Npos p)) as (H1 & H2 & _). apply digit_strs in H1.
    replace (Z.pos p) with (decimal (dec_N (Npos p))); [apply num_pos, dec_int|]. rewrite <- digits_decimal, H2 by auto. reflexivity.
  - destruct (dec_N_spec (Npos p)) as (H1 & H2 & _). apply digit_strs in H1.
    replace (Z.neg p) with (- decimal (dec_N (Npos p)))%Z; [apply num_neg, dec_int|]. rewrite <- digits_decimal, H2 by auto. reflexivity.
Qed.
Lemma ws0 : ws []. Proof. constructor. Qed.
Lemma ws1 : ws [32]. Proof. repeat constructor. Qed.
Lemma elements_ws w t l ext : ws w -> elements_text ext t l -> elements_text ext (w ++ t) l.
Proof. intros Hw H. inversion H; subst; rewrite app_assoc; constructor; auto; apply Forall_app; auto. Qed.
Lemma members_ws' w t l ext : ws w -> members_text ext t l -> members_text ext (w ++ t) l.
Proof. intros Hw H. inversion H; subst; rewrite app_assoc; constructor; auto; apply Forall_app; auto. Qed.
Lemma merged_nodup {V} (d : list (str * V)) : NoDup (map fst d) -> merged d = d.
Proof. intros H. rewrite <- merged_dict. apply dict_of_id. exact H. Qed.
Lemma dumps_text v : json_wf v = true -> value_text false (dumps v) v.
Proof.
  induction v as [|b|z|s|s|l HF|d HF] using pyval_ind'; intros Hwf; cbn [dumps].
  - rewrite <- chars_lit. constructor.
  - destruct b; [change (lit "true") with (chars "true")|change (lit "false") with (chars "false")]; constructor.
  - apply vt_number, dec_number.
  - discriminate.
  - apply vt_string, esc_text.
  - cbn [json_wf] in Hwf. destruct l as [|v l]; [apply (vt_array0 _ []), ws0|].
    apply vt_array. revert v HF Hwf. induction l as [|u l IH]; intros v HF Hwf; cbn [forallb] in Hwf; apply andb_true_iff in Hwf as [Hv Hl]; inversion HF; subst; cbn [map join].
    + rewrite <- (app_nil_r (dumps v)). apply (et_last _ []); auto using ws0.
    + apply (et_more _ [] _ _ []); auto using ws0. apply (elements_ws [32]); auto using ws1. apply IH; auto.
  - cbn [json_wf] in Hwf. apply andb_true_iff in Hwf as [Hnd Hwf]. apply nodupb_spec in Hnd.
    destruct d as [|[k v] d]; [apply (vt_object0 _ []), ws0|].
    rewrite <- (merged_nodup ((k, v) :: d)) at 2 by auto. clear Hnd. apply vt_object.
    revert k v HF Hwf. induction d as [|[k' u] d IH]; intros k v HF Hwf; cbn [forallb fst snd] in Hwf; apply andb_true_iff in Hwf as [Hv Hl]; inversion HF; subst; cbn [map join fst snd].
    + unfold dumps_str. cbn [snd] in *. pose proof (mt_last false [] (flat_map esc1 k) k [] [32] (dumps v) v [] ws0 (esc_text k) ws0 ws1 ltac:(auto) ws0) as K.
      cbn [app] in K |- *. repeat (rewrite <- ?app_assoc; cbn [app]). rewrite app_nil_r in K. exact K.
    + specialize (IH k' u ltac:(auto) ltac:(auto)).
      set (j := join _ _) in IH. match goal with |- members_text _ (_ ++ [44; 32] ++ ?x) _ => change x with j end. clearbody j.
      pose proof (mt_more false [] (flat_map esc1 k) k [] [32] (dumps v) v [] (32 :: j) ((k', u) :: d) ws0 (esc_text k) ws0 ws1 ltac:(auto) ws0) as K.
      unfold dumps_str. cbn [app] in K |- *. repeat (rewrite <- ?app_assoc; cbn [app]). apply K. apply (members_ws' [32]); [apply ws1|]. exact IH.
Qed.
Lemma dumps_json v : json_wf v = true -> json_text false (dumps v) v.
Proof. intros H. rewrite <- (app_nil_r (dumps v)). apply (jt _ []); auto using ws0. apply dumps_text. exact H. Qed.
