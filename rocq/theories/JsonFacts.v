(** Facts about Json.v: scanning inverts printing; the fuel never runs out. *)
From Coq Require Import String Ascii List NArith ZArith Bool Lia ZifyBool ZifyNat ZifyN.
From Verif Require Import Base BaseFacts Json.
Import ListNotations.
Open Scope N_scope.
Ltac Zify.zify_post_hook ::= Z.div_mod_to_equations.
Local Notation SEP := (44%N :: 32%N :: nil).
Local Notation COL := (58%N :: 32%N :: nil).

Lemma nodupb_spec l : nodupb l = true <-> NoDup l.
Proof.
  induction l as [|x l IH]; simpl; [split; auto using NoDup_nil|].
  rewrite andb_true_iff, negb_true_iff, ins_nIn, IH, NoDup_cons_iff. tauto.
Qed.

(** ** Strings *)
Lemma hex_ctrl c : c < 32 -> hex4 48 48 (hexdig (c / 16)) (hexdig (c mod 16)) = Some c.
Proof.
  intros H.
  assert (K : (match hex4 48 48 (hexdig (c / 16)) (hexdig (c mod 16)) with Some w => w =? c | None => false end) = true).
  { assert (F : forallb (fun c => match hex4 48 48 (hexdig (c / 16)) (hexdig (c mod 16)) with Some w => w =? c | None => false end)
        (map N.of_nat (seq 0 32)) = true) by (vm_compute; auto).
    rewrite forallb_forall in F. apply F. apply in_map_iff. exists (N.to_nat c). split; [lia|]. apply in_seq; lia. }
  destruct (hex4 _ _ _ _); [f_equal; lia | discriminate].
Qed.

Lemma scan_esc1 c t : scan_str (esc1 c ++ t) = pcons c (scan_str t).
Proof.
  unfold esc1.
  destruct (N.eqb_spec c 34) as [->|]; [reflexivity|].
  destruct (N.eqb_spec c 92) as [->|]; [reflexivity|].
  destruct (N.eqb_spec c 10) as [->|]; [reflexivity|].
  destruct (N.eqb_spec c 13) as [->|]; [reflexivity|].
  destruct (N.eqb_spec c 9) as [->|]; [reflexivity|].
  destruct (N.eqb_spec c 12) as [->|]; [reflexivity|].
  destruct (N.eqb_spec c 8) as [->|]; [reflexivity|].
  destruct (c <? 32) eqn:E.
  - cbn [app scan_str]. change (92 =? 34) with false. change (92 =? 92) with true.
    change (117 =? 117) with true. cbv iota.
    rewrite hex_ctrl by lia. replace (high_surr c) with false by (unfold high_surr; lia). reflexivity.
  - cbn [app scan_str]. replace (c =? 34) with false by lia. replace (c =? 92) with false by lia.
    rewrite E. reflexivity.
Qed.
Lemma scan_esc s rest : scan_str (flat_map esc1 s ++ 34 :: rest) = Ok (s, rest).
Proof.
  induction s as [|c s IH]; [reflexivity|].
  cbn [flat_map]. rewrite <- app_assoc, scan_esc1, IH. reflexivity.
Qed.
Lemma scan_dumps_str s rest :
  exists t, dumps_str s ++ rest = 34 :: t /\ scan_str t = Ok (s, rest).
Proof.
  unfold dumps_str. eexists; split; [cbn [app]; rewrite <- app_assoc; reflexivity|].
  apply scan_esc.
Qed.

(** ** Numbers *)
Definition digit_str (s : str) : Prop := Forall (fun c => is_digit c = true) s.
Lemma digits_val_snoc ds d : digits_val (ds ++ [d]) = digits_val ds * 10 + (d - 48).
Proof. unfold digits_val. rewrite fold_left_app. reflexivity. Qed.

Lemma dec_aux_spec f : forall n acc, n < 2 ^ N.of_nat f ->
  exists ds, dec_aux (S f) n acc = ds ++ acc /\ digit_str ds /\ digits_val ds = n /\
             (if n =? 0 then ds = [48] else exists d r, ds = d :: r /\ d <> 48).
Proof.
  induction f as [|f IH]; intros n acc Hn.
  - assert (n = 0) by (cbn in Hn; lia). subst. exists [48]. repeat split; repeat constructor.
  - cbn [dec_aux]. destruct (n <? 10) eqn:E.
    + exists [48 + n mod 10]. repeat split.
      * repeat constructor. unfold is_digit; lia.
      * unfold digits_val; simpl. lia.
      * destruct (n =? 0) eqn:E0; [f_equal; lia|]. do 2 eexists; split; [reflexivity|lia].
    + destruct (IH (n / 10) ((48 + n mod 10) :: acc)) as (ds & H1 & H2 & H3 & H4).
      { replace (N.of_nat (S f)) with (N.succ (N.of_nat f)) in Hn by lia.
        rewrite N.pow_succ_r' in Hn. lia. }
      exists (ds ++ [48 + n mod 10]).
      change (dec_aux (S f) (n / 10) ((48 + n mod 10) :: acc)
              = (ds ++ [48 + n mod 10]) ++ acc) in H1 || (rewrite <- app_assoc; cbn [app]).
      repeat split.
      * exact H1.
      * apply Forall_app; split; auto. repeat constructor. unfold is_digit; lia.
      * rewrite digits_val_snoc, H3. lia.
      * replace (n / 10 =? 0) with false in H4 by lia. replace (n =? 0) with false by lia.
        destruct H4 as (d & r & -> & Hd). do 2 eexists; split; [reflexivity|auto].
Qed.
Lemma size_nat_bound n : n < 2 ^ N.of_nat (N.size_nat n).
Proof.
  destruct n as [|p]; [reflexivity|]. simpl.
  assert (Npos p < 2 ^ N.of_nat (Pos.size_nat p)); auto.
  induction p as [p IH|p IH|]; cbn [Pos.size_nat]; [..|reflexivity].
  - replace (N.of_nat (S (Pos.size_nat p))) with (N.succ (N.of_nat (Pos.size_nat p))) by lia.
    rewrite N.pow_succ_r'. lia.
  - replace (N.of_nat (S (Pos.size_nat p))) with (N.succ (N.of_nat (Pos.size_nat p))) by lia.
    rewrite N.pow_succ_r'. lia.
Qed.
Lemma dec_N_spec n :
  digit_str (dec_N n) /\ digits_val (dec_N n) = n /\
  (if n =? 0 then dec_N n = [48] else exists d r, dec_N n = d :: r /\ d <> 48).
Proof.
  unfold dec_N. destruct (dec_aux_spec (N.size_nat n) n []) as (ds & H1 & H2 & H3 & H4).
  { apply size_nat_bound. }
  rewrite app_nil_r in H1. rewrite H1. auto.
Qed.

Definition stop (rest : str) : Prop :=
  match rest with
  | [] => True
  | c :: _ => is_digit c = false /\ c <> 46 /\ c <> 101 /\ c <> 69
  end.
Lemma span_digits_app ds rest : digit_str ds -> stop rest -> span_digits (ds ++ rest) = (ds, rest).
Proof.
  induction 1 as [|d ds Hd Hds IH]; intros Hs; cbn [app span_digits].
  - destruct rest as [|c rest]; auto. destruct Hs as (H & _). cbn [span_digits]. rewrite H; auto.
  - rewrite Hd, IH; auto.
Qed.
Lemma scan_frac_stop rest : stop rest -> scan_frac rest = ([], rest).
Proof.
  destruct rest as [|c [|d r]]; auto. intros (_ & H & _). simpl.
  replace (c =? 46) with false by lia. reflexivity.
Qed.
Lemma scan_exp_stop rest : stop rest -> scan_exp rest = ([], rest).
Proof.
  destruct rest as [|c r]; auto. intros (_ & _ & H1 & H2). simpl.
  replace (c =? 101) with false by lia. replace (c =? 69) with false by lia. reflexivity.
Qed.
Lemma scan_int_dec n rest : stop rest -> scan_int (dec_N n ++ rest) = Some (dec_N n, rest).
Proof.
  intros Hs. destruct (dec_N_spec n) as (H1 & H2 & H3).
  destruct (n =? 0).
  - rewrite H3. reflexivity.
  - destruct H3 as (d & r & E & Hd).
    rewrite <- (span_digits_app _ _ H1 Hs). rewrite E. cbn [app scan_int].
    replace (d =? 48) with false by lia.
    rewrite E in H1. inversion H1 as [|? ? Hd0 _]; subst. rewrite Hd0. reflexivity.
Qed.
Lemma dec_N_head n rest : exists d t, dec_N n ++ rest = d :: t /\ is_digit d = true.
Proof.
  destruct (dec_N_spec n) as (H1 & _ & H3).
  destruct (n =? 0); [rewrite H3; cbn; eauto|].
  destruct H3 as (d & r & E & _). rewrite E in H1 |- *. inversion H1; subst. cbn; eauto.
Qed.
Lemma scan_number_dec z rest : stop rest -> scan_number (dec_Z z ++ rest) = Ok (PInt z, rest).
Proof.
  intros Hs. unfold scan_number, dec_Z. destruct z as [|p|p]; cbv beta iota.
  - cbn [app]. change (48 =? 45) with false. cbv iota. cbn [scan_int]. change (48 =? 48) with true. cbv iota. rewrite scan_frac_stop, scan_exp_stop by auto. reflexivity.
  - destruct (dec_N_head (Npos p) rest) as (d & t & E & Hd).
    rewrite E. replace (d =? 45) with false by (unfold is_digit in Hd; lia). cbv beta iota. rewrite <- E.
    cbv beta iota. rewrite scan_int_dec, scan_frac_stop, scan_exp_stop by auto.
    destruct (dec_N_spec (Npos p)) as (_ & -> & _). reflexivity.
  - cbn [app]. change (45 =? 45) with true. cbv iota.
    rewrite scan_int_dec, scan_frac_stop, scan_exp_stop by auto.
    destruct (dec_N_spec (Npos p)) as (_ & -> & _). reflexivity.
Qed.

(** ** Values *)
Lemma stop_char c r : is_digit c = false -> c <> 46 -> c <> 101 -> c <> 69 -> stop (c :: r).
Proof. simpl; auto. Qed.

Lemma dumps_head v : json_wf v = true ->
  exists c t, dumps v = c :: t /\ is_ws c = false /\ c <> 93 /\ c <> 125 /\ c <> 65279 /\ c <> 34 + 65536.
Proof.
  destruct v as [|[|]|z|s|s|l|d]; simpl; intros H; try discriminate;
    try (do 2 eexists; split; [reflexivity|]; repeat split; (reflexivity || discriminate)).
  - destruct z as [|p|p]; simpl.
    + do 2 eexists; split; [reflexivity|]; repeat split; (reflexivity || discriminate).
    + destruct (dec_N_head (Npos p) []) as (d & t & E & Hd). rewrite app_nil_r in E. rewrite E.
      do 2 eexists; split; [reflexivity|]. unfold is_digit, is_ws in *. repeat split; lia.
    + do 2 eexists; split; [reflexivity|]; repeat split; (reflexivity || discriminate).
Qed.
Lemma skip_ws_dumps v r : json_wf v = true -> skip_ws (dumps v ++ r) = dumps v ++ r.
Proof.
  intros H. destruct (dumps_head v H) as (c & t & -> & Hc & _). cbn [app skip_ws]. rewrite Hc. auto.
Qed.

Lemma pval_str n s rest : (0 < n)%nat -> pval n (dumps_str s ++ rest) = Ok (PStr s, rest).
Proof.
  intros Hn. destruct n; [lia|]. destruct (scan_dumps_str s rest) as (t & -> & H).
  cbn [pval]. change (34 =? 34) with true. cbv iota. rewrite H. reflexivity.
Qed.
Lemma pval_int n z rest : (0 < n)%nat -> stop rest -> pval n (dec_Z z ++ rest) = Ok (PInt z, rest).
Proof.
  intros Hn Hs. destruct n as [|n]; [lia|].
  rewrite <- (scan_number_dec z rest Hs).
  assert (Hh : exists c t, dec_Z z ++ rest = c :: t /\
     (is_digit c = true \/ (c = 45 /\ match t with [] => True | d :: _ => d <> 73 end))).
  { destruct z as [|p|p]; simpl.
    - do 2 eexists; split; [reflexivity|]; auto.
    - destruct (dec_N_head (Npos p) rest) as (d & t & E & Hd). rewrite E. eauto 6.
    - do 2 eexists; split; [reflexivity|]. right; split; auto.
      destruct (dec_N_head (Npos p) rest) as (d & t & E & Hd). rewrite E. unfold is_digit in Hd; lia. }
  destruct Hh as (c & t & E & Hc). rewrite E. cbn [pval].
  assert (Hc' : is_digit c = true \/ c = 45) by tauto. unfold is_digit in Hc'.
  replace (c =? 34) with false by lia. replace (c =? 123) with false by lia. replace (c =? 91) with false by lia.
  change (lit "null") with [110; 117; 108; 108]. change (lit "true") with [116; 114; 117; 101].
  change (lit "false") with [102; 97; 108; 115; 101]. change (lit "NaN") with [78; 97; 78].
  change (lit "Infinity") with [73; 110; 102; 105; 110; 105; 116; 121].
  change (lit "-Infinity") with [45; 73; 110; 102; 105; 110; 105; 116; 121].
  cbn [strip_prefix].
  replace (110 =? c) with false by lia. replace (116 =? c) with false by lia.
  replace (102 =? c) with false by lia. replace (78 =? c) with false by lia. replace (73 =? c) with false by lia.
  destruct Hc as [Hd|[-> Ht]].
  - replace (45 =? c) with false by (unfold is_digit in Hd; lia). reflexivity.
  - change (45 =? 45) with true. cbv iota. destruct t as [|d t]; [reflexivity|].
    replace (73 =? d) with false by lia. reflexivity.
Qed.

Lemma join_cons2 sep (x y : str) l : join sep (x :: y :: l) = x ++ sep ++ join sep (y :: l).
Proof. reflexivity. Qed.

Definition good (v : pyval) : Prop :=
  forall n rest, json_wf v = true -> (length (dumps v) < n)%nat -> stop rest ->
    pval n (dumps v ++ rest) = Ok (v, rest).

Lemma elems_dumps l : Forall good l -> forallb json_wf l = true -> l <> [] ->
  forall n m rest, (length (join SEP (map dumps l)) < n)%nat -> (length l <= m)%nat ->
  elems (pval n) m (join SEP (map dumps l) ++ 93 :: rest) = Ok (l, rest).
Proof.
  induction l as [|v l IH]; intros HF Hwf Hne n m rest Hlen Hm; [congruence|].
  inversion HF as [|? ? Hv HF']; subst. simpl in Hwf. apply andb_true_iff in Hwf as [Hwv Hwl].
  destruct m as [|m]; [simpl in Hm; lia|]. cbn [elems].
  destruct l as [|v' l].
  - cbn [map join] in *. rewrite (Hv n (93 :: rest)); [reflexivity|auto|auto|apply stop_char; (reflexivity || discriminate)].
  - cbn [map] in *. rewrite join_cons2 in *. rewrite <- !app_assoc. rewrite !app_length in Hlen.
    rewrite (Hv n); [|auto|lia|apply stop_char; (reflexivity || discriminate)].
    unfold rbind at 1. cbn [app skip_ws]. change (is_ws 44) with false. cbv iota.
    change (44 =? 93) with false. change (44 =? 44) with true. cbv iota.
    cbn [skip_ws]. change (is_ws 32) with true. cbv iota.
    assert (Hsk : forall r, skip_ws (join SEP (dumps v' :: map dumps l) ++ r) = join SEP (dumps v' :: map dumps l) ++ r).
    { simpl in Hwl. apply andb_true_iff in Hwl as [Hwv' _].
      intros r. destruct (map dumps l) eqn:El; [cbn [join]|rewrite join_cons2, <- !app_assoc];
      apply skip_ws_dumps; auto. }
    rewrite Hsk.
    rewrite IH; [reflexivity | auto | auto | congruence | simpl in *; lia | simpl in *; lia].
Qed.

Lemma members_dumps d :
  Forall (fun kv => good (snd kv)) d -> forallb (fun kv => json_wf (snd kv)) d = true -> d <> [] ->
  forall n m rest,
  (length (join SEP (map (fun kv => dumps_str (fst kv) ++ COL ++ dumps (snd kv)) d)) < n)%nat ->
  (length d <= m)%nat ->
  members (pval n) m (join SEP (map (fun kv => dumps_str (fst kv) ++ COL ++ dumps (snd kv)) d) ++ 125 :: rest)
   = Ok (d, rest).
Proof.
  set (f := fun kv : str * pyval => dumps_str (fst kv) ++ COL ++ dumps (snd kv)).
  induction d as [|[k v] d IH]; intros HF Hwf Hne n m rest Hlen Hm; [congruence|].
  inversion HF as [|? ? Hv HF']; subst. cbn [snd] in Hv.
  simpl in Hwf. apply andb_true_iff in Hwf as [Hwv Hwl].
  destruct m as [|m]; [simpl in Hm; lia|]. cbn [members].
  assert (Hstep : forall R, exists t, f (k, v) ++ R = 34 :: t /\ scan_str t = Ok (k, 58 :: 32 :: dumps v ++ R)).
  { intros R. unfold f; cbn [fst snd]. rewrite <- !app_assoc. cbn [app].
    apply scan_dumps_str. }
  destruct d as [|kv' d].
  - cbn [map join] in *. destruct (Hstep (125 :: rest)) as (t & -> & Hs).
    change (34 =? 34) with true. cbv iota. rewrite Hs. unfold rbind at 1.
    cbn [skip_ws]. change (is_ws 58) with false. cbv iota. change (58 =? 58) with true. cbv iota.
    cbn [skip_ws]. change (is_ws 32) with true. cbv iota. rewrite skip_ws_dumps by auto.
    rewrite (Hv n); [|auto|unfold f in Hlen; cbn [fst snd] in Hlen; rewrite !app_length in Hlen; lia
                           |apply stop_char; (reflexivity || discriminate)].
    reflexivity.
  - cbn [map] in *. rewrite join_cons2 in *. rewrite <- !app_assoc. rewrite !app_length in Hlen.
    destruct (Hstep (SEP ++ join SEP (f kv' :: map f d) ++ 125 :: rest)) as (t & Ht & Hs). unfold str in *. rewrite Ht.
    change (34 =? 34) with true. cbv iota. rewrite Hs. unfold rbind at 1.
    cbn [skip_ws]. change (is_ws 58) with false. cbv iota. change (58 =? 58) with true. cbv iota.
    cbn [skip_ws]. change (is_ws 32) with true. cbv iota. rewrite skip_ws_dumps by auto.
    rewrite (Hv n); [|auto|unfold f in Hlen; cbn [fst snd] in Hlen; rewrite !app_length in Hlen; lia
                           |apply stop_char; (reflexivity || discriminate)].
    unfold rbind at 1. cbn [app skip_ws]. change (is_ws 44) with false. cbv iota.
    change (44 =? 125) with false. change (44 =? 44) with true. cbv iota.
    cbn [skip_ws]. change (is_ws 32) with true. cbv iota.
    assert (Hsk : forall r, skip_ws (join SEP (f kv' :: map f d) ++ r) = join SEP (f kv' :: map f d) ++ r).
    { intros r. destruct (map f d); [cbn [join]|rewrite join_cons2, <- !app_assoc];
      unfold f, dumps_str; cbn [app]; reflexivity. }
    rewrite Hsk.
    rewrite IH; [reflexivity | auto | auto | congruence | simpl in *; lia | simpl in *; lia].
Qed.

Lemma join_length_elems (l : list str) : (forall x, In x l -> x <> []) -> (length l <= length (join SEP l))%nat.
Proof.
  induction l as [|x [|y l] IH]; intros H; [simpl; lia| |].
  - cbn [join length]. specialize (H x (or_introl eq_refl)). destruct x; [congruence|simpl; lia].
  - rewrite join_cons2, !app_length. cbn [length] in *.
    assert (S (length l) <= length (join SEP (y :: l)))%nat by (apply IH; intros; apply H; right; auto).
    lia.
Qed.

Theorem pval_dumps v : good v.
Proof.
  induction v as [|b|z|s|s|l HF|d HF] using pyval_ind'; intros n rest Hwf Hlen Hstop.
  - destruct n; [simpl in Hlen; lia|]. reflexivity.
  - destruct n; [destruct b; simpl in Hlen; lia|]. destruct b; reflexivity.
  - apply pval_int; [lia|auto].
  - discriminate.
  - apply pval_str; lia.
  - simpl in Hwf. cbn [dumps]. destruct n as [|n]; [lia|].
    destruct l as [|v l].
    + cbn. reflexivity.
    + cbn [dumps length] in Hlen. rewrite app_length in Hlen. cbn [length] in Hlen.
      cbn [app]. rewrite <- app_assoc. cbn [app pval].
      change (91 =? 34) with false. change (91 =? 123) with false. change (91 =? 91) with true. cbv iota.
      assert (Hw : json_wf v = true) by (simpl in Hwf; apply andb_true_iff in Hwf; tauto).
      destruct (dumps_head v Hw) as (c & t & Ec & Hc1 & Hc2 & _).
      set (J := join SEP (map dumps (v :: l))) in *.
      assert (HJ : exists t', J = c :: t').
      { subst J. cbn [map]. destruct (map dumps l); [cbn [join]; eauto | rewrite join_cons2, Ec; cbn; eauto]. }
      destruct HJ as (t' & EJ).
      rewrite EJ. cbn [app skip_ws]. rewrite Hc1. replace (c =? 93) with false by lia.
      change (c :: t' ++ 93 :: rest) with ((c :: t') ++ 93 :: rest). rewrite <- EJ. subst J.
      rewrite elems_dumps; [reflexivity | auto | auto | congruence | lia|].
      assert (length (map dumps (v :: l)) <= length (join SEP (map dumps (v :: l))))%nat.
      { apply join_length_elems. intros x Hx. apply in_map_iff in Hx as (w & <- & Hw').
        rewrite forallb_forall in Hwf. destruct (dumps_head w (Hwf _ Hw')) as (c0 & t0 & -> & _). congruence. }
      rewrite map_length in H. lia.
  - cbn [json_wf] in Hwf. apply andb_true_iff in Hwf as [Hnd Hwf]. apply nodupb_spec in Hnd.
    cbn [dumps]. destruct n as [|n]; [lia|].
    destruct d as [|[k v] d].
    + cbn. reflexivity.
    + cbn [dumps length] in Hlen. rewrite app_length in Hlen. cbn [length] in Hlen.
      set (f := fun kv : str * pyval => dumps_str (fst kv) ++ COL ++ dumps (snd kv)) in *.
      set (J := join SEP (map f ((k, v) :: d))) in *.
      cbn [app]. rewrite <- app_assoc. cbn [app pval].
      change (123 =? 34) with false. change (123 =? 123) with true. cbv iota.
      assert (HJ : exists t', J = 34 :: t').
      { subst J. cbn [map]. destruct (map f d); [cbn [join] | rewrite join_cons2]; unfold f, dumps_str; cbn; eauto. }
      destruct HJ as (t' & EJ).
      rewrite EJ. cbn [app skip_ws]. change (is_ws 34) with false. cbv iota. change (34 =? 125) with false. cbv iota.
      change (34 :: t' ++ 125 :: rest) with ((34 :: t') ++ 125 :: rest). rewrite <- EJ. subst J. unfold f in *.
      rewrite members_dumps; [| auto | auto | congruence | lia|].
      * cbn [rbind]. rewrite dict_of_id; auto.
      * assert (length (map f ((k, v) :: d)) <= length (join SEP (map f ((k, v) :: d))))%nat.
        { apply join_length_elems. intros x Hx. apply in_map_iff in Hx as (w & <- & Hw').
          unfold f, dumps_str. cbn. congruence. }
        rewrite map_length in H. unfold f in H. lia.
Qed.

(** [json.loads(json.dumps(v, ensure_ascii=False)) == v] *)
Theorem loads_dumps v : json_wf v = true -> loads (dumps v) = Ok v.
Proof.
  intros H. destruct (dumps_head v H) as (c & t & E & Hws & _ & _ & Hbom & _).
  unfold loads. rewrite E. replace (c =? 65279) with false by lia.
  cbn [skip_ws]. rewrite Hws. rewrite <- E.
  rewrite <- (app_nil_r (dumps v)) at 2.
  rewrite pval_dumps; simpl; auto.
Qed.

(** ** The fuel is adequate: scanning never runs out of it. *)
Lemma skip_ws_length s : (length (skip_ws s) <= length s)%nat.
Proof. induction s as [|c s IH]; simpl; [lia|]. destruct (is_ws c); simpl; lia. Qed.
Lemma pcons_ok c r x t : pcons c r = Ok (x, t) -> exists x', r = Ok (x', t).
Proof. destruct r as [[s u]|]; simpl; intros H; [injection H as <- <-; eauto|discriminate]. Qed.
Lemma pcons_err c r e : pcons c r = Err e -> r = Err e.
Proof. destruct r as [[s u]|]; simpl; congruence. Qed.

Lemma scan_str_props s :
  (forall x t, scan_str s = Ok (x, t) -> (length t < length s)%nat) /\
  (forall e, scan_str s = Err e -> e = JSONDecodeError).
Proof.
  remember (length s) as n eqn:Hn. revert s Hn.
  induction n as [n IH] using (well_founded_induction PeanoNat.Nat.lt_wf_0). intros s ->.
  assert (K : forall u, (length u < length s)%nat ->
    (forall x t, scan_str u = Ok (x, t) -> (length t < length u)%nat) /\
    (forall e, scan_str u = Err e -> e = JSONDecodeError)) by (intros; eapply IH; eauto).
  clear IH.
  assert (KC : forall c u, (length u < length s)%nat ->
    (forall x t, pcons c (scan_str u) = Ok (x, t) -> (length t < length s)%nat) /\
    (forall e, pcons c (scan_str u) = Err e -> e = JSONDecodeError)).
  { intros c u Hu. destruct (K u Hu) as [K1 K2]. split.
    - intros x t H. apply pcons_ok in H as (x' & H). apply K1 in H. lia.
    - intros e H. apply pcons_err in H. auto. }
  clear K.
  destruct s as [|c r]; [split; simpl; congruence|]. cbn [scan_str].
  destruct (c =? 34); [split; intros; [inversion H; subst; simpl; lia|congruence]|].
  destruct (c =? 92).
  2:{ destruct (c <? 32); [split; congruence|]. apply KC; simpl; lia. }
  destruct r as [|e r1]; [split; congruence|].
  destruct (e =? 117).
  2:{ destruct (unesc e); [apply KC; simpl; lia | split; congruence]. }
  destruct r1 as [|a1 [|a2 [|a3 [|a4 r2]]]]; try (split; congruence).
  destruct (hex4 a1 a2 a3 a4) as [u|]; [|split; congruence].
  destruct (high_surr u); [|apply KC; simpl; lia].
  destruct r2 as [|x [|y [|b1 [|b2 [|b3 [|b4 r3]]]]]]; try (apply KC; simpl; lia).
  destruct ((x =? 92) && (y =? 117)); [|apply KC; simpl; lia].
  destruct (hex4 b1 b2 b3 b4) as [w|]; [|split; congruence].
  destruct (low_surr w); apply KC; simpl; lia.
Qed.

Lemma span_digits_length s a b : span_digits s = (a, b) -> (length a + length b = length s)%nat.
Proof.
  revert a b; induction s as [|c s IH]; simpl; intros a b H.
  - inversion H; auto.
  - destruct (is_digit c); [|inversion H; auto].
    destruct (span_digits s) as [a' b'] eqn:E. inversion H; subst. simpl. specialize (IH _ _ eq_refl). lia.
Qed.
Lemma scan_int_length s a b : scan_int s = Some (a, b) -> (length b < length s)%nat.
Proof.
  destruct s as [|c s]; simpl; [discriminate|]. destruct (c =? 48); [intros H; inversion H; simpl; lia|].
  destruct (is_digit c) eqn:E; [|discriminate]. destruct (span_digits s) as [a' b'] eqn:Es.
  intros H; inversion H; subst. apply span_digits_length in Es. simpl. lia.
Qed.
Lemma scan_frac_length s a b : scan_frac s = (a, b) -> (length b <= length s)%nat.
Proof.
  destruct s as [|p [|d s]]; simpl; try (intros H; inversion H; simpl; lia).
  destruct ((p =? 46) && is_digit d) eqn:E; [|intros H; inversion H; simpl; lia].
  apply andb_true_iff in E as [_ Hd]. rewrite Hd. destruct (span_digits s) eqn:Es.
  apply span_digits_length in Es. intros H; inversion H; subst; simpl; lia.
Qed.
Lemma scan_exp_length s a b : scan_exp s = (a, b) -> (length b <= length s)%nat.
Proof.
  destruct s as [|e s]; cbn [scan_exp]; [intros H; inversion H; simpl; lia|].
  destruct ((e =? 101) || (e =? 69)); [|intros H; inversion H; simpl; lia].
  destruct s as [|d s]; [intros H; inversion H; simpl; lia|].
  destruct (is_digit d).
  - destruct (span_digits (d :: s)) eqn:Es. apply span_digits_length in Es.
    intros H; inversion H; subst; simpl in *; lia.
  - destruct ((d =? 43) || (d =? 45)); [|intros H; inversion H; simpl; lia].
    destruct s as [|d' s]; [intros H; inversion H; simpl; lia|].
    destruct (is_digit d'); [|intros H; inversion H; simpl; lia].
    destruct (span_digits (d' :: s)) eqn:Es. apply span_digits_length in Es.
    intros H; inversion H; subst; simpl in *; lia.
Qed.
Lemma scan_number_props s :
  (forall x t, scan_number s = Ok (x, t) -> (length t < length s)%nat) /\
  (forall e, scan_number s = Err e -> e = JSONDecodeError).
Proof.
  unfold scan_number.
  set (p := match s with [] => (false, s) | c :: r => if c =? 45 then (true, r) else (false, s) end).
  assert (Hp : (length (snd p) <= length s)%nat).
  { subst p. destruct s as [|c s]; simpl; auto. destruct (c =? 45); simpl; lia. }
  destruct p as [neg s1]. cbn [snd] in Hp.
  destruct (scan_int s1) as [[ds s2]|] eqn:E1; [|split; congruence]. apply scan_int_length in E1.
  destruct (scan_frac s2) as [f s3] eqn:E2. apply scan_frac_length in E2.
  destruct (scan_exp s3) as [x s4] eqn:E3. apply scan_exp_length in E3.
  destruct f, x; split; try congruence; intros y t H; inversion H; subst; lia.
Qed.
Lemma strip_prefix_length p s t : strip_prefix p s = Some t -> (length s = length p + length t)%nat.
Proof.
  revert s; induction p as [|a p IH]; simpl; intros s H; [congruence|].
  destruct s as [|b s]; [discriminate|]. destruct (a =? b); [|discriminate]. simpl. rewrite (IH _ H). auto.
Qed.

Definition okpv (n : nat) (pv : str -> result (pyval * str)) : Prop :=
  forall s, (length s < n)%nat ->
    (forall x t, pv s = Ok (x, t) -> (length t < length s)%nat) /\
    (forall e, pv s = Err e -> e = JSONDecodeError).

Lemma elems_props pv n : okpv n pv -> forall m s, (length s < n)%nat -> (length s < m)%nat ->
    (forall x t, elems pv m s = Ok (x, t) -> (length t < length s)%nat) /\
    (forall e, elems pv m s = Err e -> e = JSONDecodeError).
Proof.
  intros Hpv m; induction m as [|m IH]; intros s Hn Hm; [lia|]. cbn [elems].
  destruct (Hpv s Hn) as [P1 P2]. destruct (pv s) as [[v r]|e]; cbn [rbind].
  2:{ split; [congruence|]. intros e' H. inversion H; subst; auto. }
  specialize (P1 _ _ eq_refl). pose proof (skip_ws_length r).
  destruct (skip_ws r) as [|c r'] eqn:Er; [split; congruence|]. simpl in H.
  destruct (c =? 93); [split; intros; [inversion H0; subst; lia | congruence]|].
  destruct (c =? 44); [|split; congruence].
  pose proof (skip_ws_length r').
  destruct (IH (skip_ws r')) as [Q1 Q2]; [lia|lia|].
  destruct (elems pv m (skip_ws r')) as [[vs t]|e]; cbn [rbind].
  - specialize (Q1 _ _ eq_refl). split; intros; [inversion H1; subst; lia|congruence].
  - split; [congruence|]. intros e' H'. inversion H'; subst; auto.
Qed.
Lemma members_props pv n : okpv n pv -> forall m s, (length s < n)%nat -> (length s < m)%nat ->
    (forall x t, members pv m s = Ok (x, t) -> (length t < length s)%nat) /\
    (forall e, members pv m s = Err e -> e = JSONDecodeError).
Proof.
  intros Hpv m; induction m as [|m IH]; intros s Hn Hm; [lia|]. cbn [members].
  destruct s as [|q s0]; [split; congruence|]. simpl in Hn, Hm.
  destruct (q =? 34); [|split; congruence].
  destruct (scan_str_props s0) as [S1 S2]. destruct (scan_str s0) as [[k r]|e]; cbn [rbind].
  2:{ split; [congruence|]. intros e' H. inversion H; subst; auto. }
  specialize (S1 _ _ eq_refl). pose proof (skip_ws_length r).
  destruct (skip_ws r) as [|c r'] eqn:Er; [split; congruence|]. simpl in H.
  destruct (c =? 58); [|split; congruence].
  pose proof (skip_ws_length r').
  destruct (Hpv (skip_ws r')) as [P1 P2]; [lia|].
  destruct (pv (skip_ws r')) as [[v t]|e]; cbn [rbind].
  2:{ split; [congruence|]. intros e' H'. inversion H'; subst; auto. }
  specialize (P1 _ _ eq_refl). pose proof (skip_ws_length t).
  destruct (skip_ws t) as [|c' t'] eqn:Et; [split; congruence|]. simpl in H1.
  destruct (c' =? 125); [split; intros; [inversion H2; subst; simpl; lia | congruence]|].
  destruct (c' =? 44); [|split; congruence].
  pose proof (skip_ws_length t').
  destruct (IH (skip_ws t')) as [Q1 Q2]; [lia|lia|].
  destruct (members pv m (skip_ws t')) as [[vs z]|e]; cbn [rbind].
  - specialize (Q1 _ _ eq_refl). split; intros; [inversion H3; subst; simpl; lia|congruence].
  - split; [congruence|]. intros e' H'. inversion H'; subst; auto.
Qed.

Lemma pval_props n : okpv n (pval n).
Proof.
  induction n as [|n IH]; intros s Hn; [lia|]. cbn [pval].
  destruct s as [|c r]; [split; congruence|]. simpl in Hn.
  destruct (c =? 34).
  { destruct (scan_str_props r) as [S1 S2]. destruct (scan_str r) as [[k t]|e]; cbn [rbind].
    - specialize (S1 _ _ eq_refl). split; intros; [inversion H; subst; simpl; lia|congruence].
    - split; [congruence|]. intros e' H. inversion H; subst; auto. }
  destruct (c =? 123).
  { pose proof (skip_ws_length r). destruct (skip_ws r) as [|c' r'] eqn:Er; [split; congruence|].
    destruct (c' =? 125); [simpl in H; split; intros; [inversion H0; subst; simpl; lia|congruence]|].
    destruct (members_props (pval n) n IH n (c' :: r')) as [Q1 Q2]; [lia|lia|].
    destruct (members (pval n) n (c' :: r')) as [[vs z]|e]; cbn [rbind].
    - specialize (Q1 _ _ eq_refl). split; intros; [inversion H0; subst; simpl in *; lia|congruence].
    - split; [congruence|]. intros e' H'. inversion H'; subst; auto. }
  destruct (c =? 91).
  { pose proof (skip_ws_length r). destruct (skip_ws r) as [|c' r'] eqn:Er; [split; congruence|].
    destruct (c' =? 93); [simpl in H; split; intros; [inversion H0; subst; simpl; lia|congruence]|].
    destruct (elems_props (pval n) n IH n (c' :: r')) as [Q1 Q2]; [lia|lia|].
    destruct (elems (pval n) n (c' :: r')) as [[vs z]|e]; cbn [rbind].
    - specialize (Q1 _ _ eq_refl). split; intros; [inversion H0; subst; simpl in *; lia|congruence].
    - split; [congruence|]. intros e' H'. inversion H'; subst; auto. }
  repeat match goal with
  | |- context [strip_prefix ?p ?s] =>
      let E := fresh in
      destruct (strip_prefix p s) eqn:E;
      [apply strip_prefix_length in E; split; [intros x t Hx; inversion Hx; subst; simpl in E |- *; unfold lit in E; simpl in E; lia | congruence]|]
  end.
  apply scan_number_props.
Qed.

(** [json.loads] fails only with JSONDecodeError; in particular the fuel is enough. *)
Theorem loads_err s e : loads s = Err e -> e = JSONDecodeError.
Proof.
  unfold loads. destruct s as [|c s]; [congruence|]. destruct (c =? 65279); [congruence|].
  destruct (pval_props (S (length (c :: s))) (skip_ws (c :: s))) as [P1 P2].
  { pose proof (skip_ws_length (c :: s)). lia. }
  destruct (pval _ _) as [[v r]|e']; cbn [rbind].
  - destruct (skip_ws r); congruence.
  - intros H; inversion H; subst; auto.
Qed.
