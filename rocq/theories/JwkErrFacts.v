(** The dicts that describe a key, the errors of the others, raw keys: lemmas for C15, C72, C134 and C135. *)
From Coq Require Import String Ascii List NArith ZArith Bool Lia ZifyBool ZifyNat ZifyN.
From Verif Require Import Base BaseFacts SpecPy PyFacts SpecCodec Utf8 Utf8Facts Base64 Base64Facts Json Url Webtools WebtoolsFacts Crypto Jwk JwkFile JwkFacts SpecKey SpecJws JwsFacts
  SpecReaders ReaderFacts ReadB64Facts HeaderFacts ReadJwsFacts SpecJwkErr JoseErrFacts DecFacts.
Import ListNotations.
Open Scope N_scope.
Notation rbind_ok := BaseFacts.rbind_ok.

(** ** Members *)
Section Members.
Variable d : pdict.
Lemma member_get name v : member d name v -> dget (lit name) d = v.
Proof. unfold member, dget. change (chars name) with (lit name). intros ->. reflexivity. Qed.
Lemma get_member name : dget (lit name) d <> PNone -> member d name (dget (lit name) d).
Proof. unfold member, dget. change (chars name) with (lit name). destruct (lookup _ _); auto. congruence. Qed.
Lemma num_iff name n : num d name n <-> b64_to_int (dget (lit name) d) = Ok (Some n).
Proof.
  split.
  - intros (s & H & A & b & Hb & Hn & <-). apply member_get in H. rewrite H. cbn [b64_to_int]. unfold ascii_encode.
    replace (forallb (fun c => c <? 128) s) with true by (symmetry; apply forallb_forall; rewrite Forall_forall in A; intros; apply N.ltb_lt; auto).
    cbn [rbind]. unfold b64_to_int_bytes. apply url_octets_iff in Hb. rewrite Hb. cbn [rbind]. destruct b as [|x b]; [congruence|]. reflexivity.
  - intros H. destruct (dget (lit name) d) as [| | | |s| |] eqn:E; try discriminate. exists s. split; [rewrite <- E; apply get_member; congruence|].
    cbn [b64_to_int] in H. unfold ascii_encode in H. destruct (forallb _ s) eqn:Ea; [|discriminate]. cbn [rbind] in H.
    rewrite forallb_forall in Ea. split; [apply Forall_forall; intros c Hc; apply N.ltb_lt; auto|].
    unfold b64_to_int_bytes in H. destruct (base64url_decode s) as [b|] eqn:Eb; [|discriminate]. cbn [rbind] in H.
    exists b. split; [apply url_octets_iff, Eb|]. destruct b as [|x b]; [discriminate|]. split; [discriminate|]. cbn [int_of_hex rbind] in H. injection H as H. exact H.
Qed.
Lemma number_errs name : errs (number_checks d name).
Proof. unfold errs, number_checks. repeat constructor; discriminate. Qed.
Lemma tells_num name : tells (number_checks d name) (b64_to_int (dget (lit name) d)).
Proof.
  unfold number_checks. destruct (dget (lit name) d) as [| | | |s| |] eqn:E; cbn [b64_to_int];
    try (apply tells_fail; intros H; destruct (H _ (get_member name ltac:(congruence))) as [K|(? & K)]; congruence).
  - assert (K : forall s, ~ member d name (PStr s)) by (intros s H; apply member_get in H; congruence).
    do 4 (apply tells_pass; [intros v H; first [exfalso; exact (K _ H)|left; apply member_get in H; congruence]|]). apply tells_nil.
  - assert (M : member d name (PStr s)) by (rewrite <- E; apply get_member; congruence).
    assert (K : forall s', member d name (PStr s') -> s' = s) by (intros s' H; apply member_get in H; congruence).
    apply tells_pass; [intros v H; apply member_get in H; right; exists s; congruence|].
    unfold ascii_encode. destruct (forallb _ s) eqn:Ea; cbn [rbind].
    + apply tells_pass. { intros s' H. rewrite (K _ H). rewrite forallb_forall in Ea. apply Forall_forall. intros c Hc. apply N.ltb_lt. auto. }
      unfold b64_to_int_bytes. destruct (base64url_decode s) as [b|e] eqn:Eb; cbn [rbind].
      * apply tells_pass; [intros s' H; rewrite (K _ H); exists b; apply url_octets_iff, Eb|].
        destruct b as [|x b]; cbn [int_of_hex rbind].
        -- apply tells_fail. intros H. apply (H _ M). apply url_octets_iff, Eb.
        -- apply tells_pass; [|apply tells_nil]. intros s' H H'. rewrite (K _ H) in H'. apply url_octets_iff in H'. congruence.
      * apply base64url_decode_err in Eb as X. subst e. apply tells_fail. intros H. destruct (H _ M) as (b & Hb). apply url_octets_iff in Hb. congruence.
    + apply tells_fail. intros H. apply H in M. rewrite Forall_forall in M. apply not_true_iff_false in Ea. apply Ea, forallb_forall. intros c Hc. apply N.ltb_lt; auto.
Qed.
Lemma unset_iff name : unset d name <-> truthy (dget (lit name) d) = false.
Proof.
  unfold unset, member, dget. change (chars name) with (lit name). destruct (lookup (lit name) d) as [v|].
  - rewrite false_spec. split; [auto|]. intros H w [= <-]. exact H.
  - split; [reflexivity|discriminate].
Qed.
Lemma given_iff name o n : b64_to_int (dget (lit name) d) = Ok o -> (given d name n <-> o = Some n /\ n <> 0).
Proof. intros H. unfold given. rewrite num_iff, H. split; intros [A B]; split; congruence. Qed.
Lemma none_given name o : b64_to_int (dget (lit name) d) = Ok o -> ((forall n, ~ given d name n) <-> no_num o = true).
Proof.
  intros H. split.
  - intros K. destruct o as [n|]; cbn [no_num]; auto. destruct (N.eqb_spec n 0) as [E|E]; auto. exfalso. apply (K n). apply (given_iff _ _ _ H). auto.
  - intros K n G. apply (given_iff _ _ _ H) in G as [-> G]. cbn in K. apply N.eqb_eq in K. congruence.
Qed.
Lemma readable_iff name : readable d name <-> exists o, b64_to_int (dget (lit name) d) = Ok o.
Proof.
  unfold readable. split.
  - intros [H|[H|(n & H)]].
    + exists None. unfold missing, dget in *. change (chars name) with (lit name) in H. rewrite H. reflexivity.
    + apply member_get in H. rewrite H. eexists. reflexivity.
    + apply num_iff in H. eauto.
  - intros ([n|] & H); [right; right; exists n; apply num_iff; exact H|].
    destruct (dget (lit name) d) eqn:E; cbn in H; try discriminate.
    + unfold missing, member, dget in *. change (chars name) with (lit name). destruct (lookup _ _); subst; auto.
    + destruct (ascii_encode s); [|discriminate]. cbn in H. destruct (b64_to_int_bytes a); discriminate.
Qed.
End Members.

(** ** Conditional checks *)
Lemma only_decided (P : Prop) l v : P -> (decided (only_if P l) None v <-> decided l None v).
Proof. intros HP. induction l as [|[Q w] l IH]; cbn [only_if map decided fst snd]; [reflexivity|]. fold (only_if P l). rewrite IH. tauto. Qed.
Lemma tells_only {A} (P : Prop) l (r : result A) : P -> tells l r -> tells (only_if P l) r.
Proof. intros HP T v. rewrite only_decided by auto. apply T. Qed.
Lemma tells_skip {A} (P : Prop) l l2 (r : result A) : ~ P -> tells l2 r -> tells (only_if P l ++ l2) r.
Proof. intros HP T. induction l as [|[Q w] l IH]; cbn [only_if map app fst snd]; auto. apply tells_pass; [tauto|]. exact IH. Qed.
Lemma tells_skip_end {A} (P : Prop) l (r : result A) : ~ P -> tells [] r -> tells (only_if P l) r.
Proof. intros HP T. rewrite <- (app_nil_r (only_if P l)). apply tells_skip; auto. Qed.
Lemma tells_end {A} l (r : result A) : tells l r -> tells (l ++ []) r.
Proof. rewrite app_nil_r. auto. Qed.

Lemma tells_tail {A} l1 l2 (r : result A) : errs l1 -> tells l1 r -> (forall a : A, tells l2 (Ok a)) -> tells (l1 ++ l2) r.
Proof.
  intros E T F. apply tells_map with (r := rbind r (fun a => Ok a)); [destruct r; reflexivity|]. apply tells_bind; auto.
Qed.

(** ** Symmetric keys *)
Lemma secret_iff v t : secret_text v t <-> to_bytes_any v = Ok t.
Proof.
  split.
  - intros [s t' H|z t' H1 H2| |]; cbn [to_bytes_any]; auto.
    + apply utf8_rfc. exact H.
    + f_equal. symmetry. apply dec_iff. auto.
  - destruct v as [|[|]|z| |s| |]; cbn [to_bytes_any]; intros H; try discriminate.
    + injection H as <-. constructor.
    + injection H as <-. constructor.
    + injection H as <-. destruct (proj2 (dec_iff z _) eq_refl). constructor; auto.
    + constructor. apply utf8_rfc. exact H.
Qed.
Lemma missing_has d name : missing d name <-> has (lit name) d = false.
Proof. unfold missing, has. change (chars name) with (lit name). destruct (lookup _ _); split; congruence. Qed.
Lemma kwarg_iff d name v : kwarg name d = Ok v <-> member d name v.
Proof. unfold kwarg, member. change (chars name) with (lit name). destruct (lookup _ _); cbn; split; congruence. Qed.
Lemma kwarg_get d name v : kwarg name d = Ok v -> dget (lit name) d = v.
Proof. intros H. apply member_get, kwarg_iff, H. Qed.
Lemma kwarg_err d name e : kwarg name d = Err e -> e = TypeError /\ forall v, ~ member d name v.
Proof. unfold kwarg, member. change (chars name) with (lit name). destruct (lookup _ _); cbn; [discriminate|]. intros [= <-]. split; auto. discriminate. Qed.

Section Key.
Variable C : crypto.

Lemma tells_oct d : tells (oct_checks d) (make_mat C (lit "oct") d).
Proof.
  unfold oct_checks, make_mat. change (eqs (lit "oct") (lit "oct")) with true. cbv iota.
  destruct (has (lit "self") d) eqn:Es; [apply tells_fail; intros [H _]; apply missing_has in H; congruence|].
  destruct (kwarg "k" d) as [k|e] eqn:Ek; cbn [rbind].
  2:{ apply kwarg_err in Ek as [-> Ek]. apply tells_fail. intros (_ & v & H). exact (Ek v H). }
  apply kwarg_iff in Ek. assert (K : forall v, member d "k" v -> v = k) by (unfold member in *; congruence).
  apply tells_pass; [split; [apply missing_has, Es|eauto]|]. unfold OCTKey.
  destruct (to_bytes_any k) as [t|e] eqn:Et; cbn [rbind].
  - pose proof (proj2 (secret_iff _ _) Et) as St.
    apply tells_pass. { intros v Hv. rewrite (K _ Hv). destruct St; repeat split; discriminate. }
    apply tells_pass. { intros v s Hv. rewrite (K _ Hv). destruct St; discriminate. }
    apply tells_pass. { intros v Hv. rewrite (K _ Hv). eauto. }
    destruct (base64url_decode t) as [b|e] eqn:Eb; cbn [rbind].
    + apply tells_pass; [|apply tells_nil]. exists k, t, b. split; auto. split; auto. apply url_octets_iff, Eb.
    + apply base64url_decode_err in Eb as X. subst e. apply tells_fail. intros (v & t' & b & H1 & H2 & H3). rewrite (K _ H1) in H2.
      apply secret_iff in H2. assert (t' = t) as -> by congruence. apply url_octets_iff in H3. congruence.
  - destruct k as [|[|]|z|x|s|l|m]; cbn [to_bytes_any] in Et; try discriminate.
    + injection Et as <-. apply tells_fail. intros H. destruct (H _ Ek) as [H1 _]. congruence.
    + injection Et as <-. apply tells_pass; [intros v Hv; rewrite (K _ Hv); repeat split; discriminate|]. apply tells_fail. intros H. exact (H _ _ Ek eq_refl).
    + apply utf8_encode_err in Et as X. subst e. apply tells_pass; [intros v Hv; rewrite (K _ Hv); repeat split; discriminate|].
      apply tells_pass; [intros v x Hv; rewrite (K _ Hv); discriminate|]. apply tells_fail. intros H. destruct (H _ Ek) as (t & Ht). apply secret_iff in Ht. cbn in Ht. congruence.
    + injection Et as <-. apply tells_fail. intros H. destruct (H _ Ek) as (_ & H1 & _). eapply H1; reflexivity.
    + injection Et as <-. apply tells_fail. intros H. destruct (H _ Ek) as (_ & _ & H1). eapply H1; reflexivity.
Qed.

(** ** RSA *)
Lemma rsa_public_iff n e : rsa_public_ok n e = true <-> rsa_public n e.
Proof. unfold rsa_public_ok, rsa_public. rewrite !andb_true_iff, !N.leb_le, !N.ltb_lt. split; [intros (((A & B) & D) & F)|intros ((A & B) & F)]; repeat split; auto; lia. Qed.
Lemma rsa_private_iff n e k : rsa_public n e -> (rsa_private_ok C n e k = true <-> rsa_private C n e k).
Proof.
  intros [H1 H2]. unfold rsa_private_ok, rsa_private. destruct k as [x p q dp dq qi]. cbn [r_d r_p r_q r_dmp1 r_dmq1 r_iqmp].
  rewrite !andb_true_iff, !N.ltb_lt, !N.leb_le, !N.eqb_eq. rewrite (N.mul_comm x e), (N.mul_comm qi q). split.
  - intros H. decompose [and] H. clear H. split; [symmetry; assumption|]. repeat match goal with |- _ /\ _ => split end; assumption.
  - intros (A1 & A2 & A3 & (A4 & A4') & (A5 & A5') & A6 & A7 & A8 & A9 & A10 & A11 & A12 & A13).
    assert (Hdp : dp < n) by (rewrite A7; apply N.lt_le_trans with (p - 1); [apply N.mod_lt|]; clear - A4 A4'; lia).
    assert (Hdq : dq < n) by (rewrite A8; apply N.lt_le_trans with (q - 1); [apply N.mod_lt|]; clear - A5 A5'; lia).
    assert (3 <= n) by (clear - H1; lia). destruct H1 as [H1 H1']. symmetry in A1.
    repeat match goal with |- _ /\ _ => split end; assumption.
Qed.
Lemma unkey d name v : member d name v -> kwarg name d = Ok v. Proof. apply kwarg_iff. Qed.

Section Rsa.
Variables (d : pdict) (n e x : N) (op oq odp odq oqi : option N).
Hypothesis Hd : b64_to_int (dget (lit "d") d) = Ok (Some x).
Hypothesis Hp : b64_to_int (dget (lit "p") d) = Ok op.
Hypothesis Hq : b64_to_int (dget (lit "q") d) = Ok oq.
Hypothesis Hdp : b64_to_int (dget (lit "dp") d) = Ok odp.
Hypothesis Hdq : b64_to_int (dget (lit "dq") d) = Ok odq.
Hypothesis Hqi : b64_to_int (dget (lit "qi") d) = Ok oqi.
Definition val (o : option N) : N := match o with Some v => v | None => 0 end.
Definition PQ : result (N * N) := if no_num op || no_num oq then c_rsa_recover C n e x else Ok (val op, val oq).
Definition CRT (o : option N) (p : N) : result N := if no_num o then crt_exp x p else Ok (val o).
Definition COEF (p q : N) : N := if no_num oqi then c_rsa_iqmp C p q else val oqi.
Lemma primes_iff p q : primes C d n e x p q <-> PQ = Ok (p, q).
Proof.
  unfold primes, PQ. setoid_rewrite (given_iff d "p" op _ Hp). setoid_rewrite (given_iff d "q" oq _ Hq). destruct op as [p'|], oq as [q'|]; cbn [no_num orb val].
  - destruct (N.eqb_spec p' 0) as [E|E], (N.eqb_spec q' 0) as [E'|E']; cbn [orb]; (split; [intros [([[= ->] A] & [= ->] & B)|(A & B)]; try congruence; exfalso; apply (A p' q'); auto|]); intros H;
      try (right; split; [intros p0 q0 ([[= ->] A] & [= ->] & B); congruence|exact H]).
    injection H as <- <-. auto.
  - rewrite orb_true_r. split; [intros [(_ & A & _)|(_ & A)]; [discriminate|exact A]|]. intros H. right. split; auto. intros ? ? (_ & A & _). discriminate.
  - split; [intros [((A & _) & _)|(_ & A)]; [discriminate|exact A]|]. intros H. right. split; auto. intros ? ? ((A & _) & _). discriminate.
  - split; [intros [((A & _) & _)|(_ & A)]; [discriminate|exact A]|]. intros H. right. split; auto. intros ? ? ((A & _) & _). discriminate.
Qed.
Lemma crt_iff name o p v : b64_to_int (dget (lit name) d) = Ok o -> (crt_exponent d name x p v <-> CRT o p = Ok v).
Proof.
  intros Ho. unfold crt_exponent, CRT. rewrite (none_given _ _ _ Ho), (given_iff _ _ _ v Ho). destruct o as [w|]; cbn [no_num val].
  - destruct (N.eqb_spec w 0) as [E|E]; unfold crt_exp.
    + destruct (N.eqb_spec p 1) as [P|P]; split; try discriminate.
      * intros [[[= ->] A]|(_ & A & _)]; congruence.
      * intros [[[= ->] A]|(_ & A & ->)]; [congruence|reflexivity].
      * intros [= <-]. right. auto.
    + split; [intros [[[= ->] A]|(A & _)]; [reflexivity|discriminate]|]. intros [= ->]. left. auto.
  - unfold crt_exp. destruct (N.eqb_spec p 1) as [P|P]; split; try discriminate.
    + intros [[A _]|(_ & A & _)]; congruence.
    + intros [[A _]|(_ & _ & ->)]; [discriminate|reflexivity].
    + intros [= <-]. right. auto.
Qed.
Lemma coef_iff p q v : crt_coefficient C d p q v <-> COEF p q = v.
Proof.
  unfold crt_coefficient, COEF. rewrite (none_given _ _ _ Hqi), (given_iff _ _ _ v Hqi). destruct oqi as [w|]; cbn [no_num val].
  - destruct (N.eqb_spec w 0) as [E|E]; split.
    + intros [[[= ->] A]|(_ & ->)]; [congruence|reflexivity].
    + intros <-. right. auto.
    + intros [[[= ->] A]|(A & _)]; [reflexivity|discriminate].
    + intros <-. left. auto.
  - split; [intros [[A _]|(_ & ->)]; [discriminate|reflexivity]|]. intros <-. right. auto.
Qed.
Lemma private_iff k : rsa_private_key C d n e k <->
  r_d k = x /\ PQ = Ok (r_p k, r_q k) /\ CRT odp (r_p k) = Ok (r_dmp1 k) /\ CRT odq (r_q k) = Ok (r_dmq1 k) /\ COEF (r_p k) (r_q k) = r_iqmp k.
Proof.
  unfold rsa_private_key. rewrite num_iff, Hd. split.
  - intros (A & B1 & B2 & B3 & B4). injection A as A. rewrite <- A in *. apply primes_iff in B1. apply (crt_iff _ _ _ _ Hdp) in B2. apply (crt_iff _ _ _ _ Hdq) in B3. apply coef_iff in B4. auto.
  - intros (A & B1 & B2 & B3 & B4). rewrite A. split; [reflexivity|]. apply primes_iff in B1. apply (crt_iff _ _ _ _ Hdp) in B2. apply (crt_iff _ _ _ _ Hdq) in B3. apply coef_iff in B4. auto.
Qed.
Definition private_part : result kmat :=
  let! (p', q') := PQ in
  let! dp' := CRT odp p' in
  let! dq' := CRT odq q' in
  let k := {| r_d := x; r_p := p'; r_q := q'; r_dmp1 := dp'; r_dmq1 := dq'; r_iqmp := COEF p' q' |} in
  if rsa_private_ok C n e k then Ok (KRSA n e (Some k)) else Err ValueError.
Lemma private_ok m : rsa_public n e -> (private_part = Ok m <-> exists k, m = KRSA n e (Some k) /\ rsa_private_key C d n e k /\ rsa_private C n e k).
Proof.
  intros Hpub. unfold private_part. split.
  - destruct PQ as [[p' q']|] eqn:E1; cbn [rbind]; [|discriminate]. destruct (CRT odp p') as [dp'|] eqn:E2; cbn [rbind]; [|discriminate].
    destruct (CRT odq q') as [dq'|] eqn:E3; cbn [rbind]; [|discriminate]. cbv zeta.
    match goal with |- context [rsa_private_ok C n e ?k] => set (K := k); destruct (rsa_private_ok C n e K) eqn:Ep end; [|discriminate].
    intros [= <-]. exists K. split; auto. split; [|apply rsa_private_iff; auto]. apply private_iff. unfold K. cbn. auto.
  - intros (k & -> & H1 & H2). apply private_iff in H1 as (A & B1 & B2 & B3 & B4). rewrite B1. cbn [rbind]. rewrite B2. cbn [rbind]. rewrite B3. cbn [rbind]. cbv zeta. rewrite B4, <- A.
    apply rsa_private_iff in H2; auto. destruct k. cbn in *. rewrite H2. reflexivity.
Qed.
Lemma tells_private : recover_raises C -> rsa_public n e -> num d "n" n -> num d "e" e ->
  tells [(exists n e x p q, num d "n" n /\ num d "e" e /\ num d "d" x /\ primes C d n e x p q, Some ValueError);
         (exists n e k, num d "n" n /\ num d "e" e /\ rsa_private_key C d n e k, Some ZeroDivisionError);
         (exists n e k, num d "n" n /\ num d "e" e /\ rsa_private_key C d n e k /\ rsa_private C n e k, Some ValueError)] private_part.
Proof.
  intros Hr Hpub Hn He.
  assert (U : forall name a b, num d name a -> num d name b -> a = b) by (intros name a b A B; apply num_iff in A, B; congruence).
  assert (F : forall (P : N -> N -> Prop), (exists n' e', num d "n" n' /\ num d "e" e' /\ P n' e') <-> P n e).
  { intros P. split; [intros (n' & e' & A & B & H)|eauto]. rewrite (U _ _ _ Hn A), (U _ _ _ He B). exact H. }
  apply (tells_iff _ (exists p q, PQ = Ok (p, q))).
  { rewrite <- (F (fun n e => exists p q, PQ = Ok (p, q))). split.
    - intros (n' & e' & x' & p & q & A & B & X & H). exists n', e'. do 2 (split; auto). exists p, q.
      rewrite <- (U _ _ _ Hn A), <- (U _ _ _ He B) in H. apply num_iff in X. assert (x' = x) as -> by congruence. apply primes_iff. exact H.
    - intros (n' & e' & A & B & p & q & H). exists n', e', x, p, q. do 2 (split; auto). split; [apply num_iff; auto|]. rewrite <- (U _ _ _ Hn A), <- (U _ _ _ He B). apply primes_iff. exact H. }
  unfold private_part. destruct PQ as [[p' q']|err] eqn:E1; cbn [rbind].
  2:{ unfold PQ in E1. destruct (no_num op || no_num oq); [|discriminate]. apply Hr in E1 as X. subst err. apply tells_fail. intros (? & ? & ?). discriminate. }
  apply tells_pass; [eauto|].
  assert (Z : forall o p err, CRT o p = Err err -> err = ZeroDivisionError).
  { intros o p err. unfold CRT, crt_exp. destruct (no_num o); [|discriminate]. destruct (p =? 1); congruence. }
  apply (tells_iff _ (exists k, rsa_private_key C d n e k)).
  { rewrite <- (F (fun n e => exists k, rsa_private_key C d n e k)). split; [intros (n' & e' & k & A & B & H)|intros (n' & e' & A & B & k & H)]; eauto 8. }
  destruct (CRT odp p') as [dp'|err] eqn:E2; cbn [rbind].
  2:{ rewrite (Z _ _ _ E2). apply tells_fail. intros (k & H). apply private_iff in H as (_ & B1 & B2 & _). rewrite E1 in B1. injection B1 as B1 B1'. congruence. }
  destruct (CRT odq q') as [dq'|err] eqn:E3; cbn [rbind].
  2:{ rewrite (Z _ _ _ E3). apply tells_fail. intros (k & H). apply private_iff in H as (_ & B1 & _ & B2 & _). rewrite E1 in B1. injection B1 as B1 B1'. congruence. }
  cbv zeta. match goal with |- context [rsa_private_ok C n e ?k] => set (K := k) end.
  assert (HK : rsa_private_key C d n e K) by (apply private_iff; unfold K; cbn; auto).
  apply tells_pass; [eauto|].
  assert (HU : forall k, rsa_private_key C d n e k -> k = K).
  { intros [kd kp kq kdp kdq kqi] H. apply private_iff in H as (A & B1 & B2 & B3 & B4). unfold K. cbn [r_d r_p r_q r_dmp1 r_dmq1 r_iqmp] in *.
    rewrite E1 in B1. injection B1 as <- <-. rewrite E2 in B2. injection B2 as <-. rewrite E3 in B3. injection B3 as <-. rewrite A, B4. reflexivity. }
  destruct (rsa_private_ok C n e K) eqn:Ep.
  - apply tells_pass; [|apply tells_nil]. exists n, e, K. do 3 (split; auto). apply rsa_private_iff; auto.
  - apply tells_fail. intros (n' & e' & k & A & B & H1 & H2). rewrite <- (U _ _ _ Hn A), <- (U _ _ _ He B) in *. rewrite (HU _ H1) in H2. apply rsa_private_iff in H2; auto. congruence.
Qed.
End Rsa.

Lemma get_none d name v : member d name v -> (member d name PNone <-> dget (lit name) d = PNone).
Proof. intros H. split; [apply member_get|]. intros E. apply member_get in H as H'. congruence. Qed.
Lemma none_num d name : b64_to_int (dget (lit name) d) = Ok None <-> dget (lit name) d = PNone.
Proof.
  split; [|intros ->; reflexivity]. destruct (dget (lit name) d); cbn; try discriminate; auto. destruct (ascii_encode s); [|discriminate]. cbn. destruct (b64_to_int_bytes a); discriminate.
Qed.
Lemma tells_rsa d : recover_raises C -> tells (rsa_checks C d) (make_mat C (lit "RSA") d).
Proof.
  intros Hr. unfold rsa_checks, make_mat. change (eqs (lit "RSA") (lit "oct")) with false. change (eqs (lit "RSA") (lit "RSA")) with true. cbv iota. cbn [app].
  destruct (has (lit "self") d) eqn:Es; [apply tells_fail; intros [H _]; apply missing_has in H; congruence|].
  destruct (kwarg "n" d) as [vn|err] eqn:En; cbn [rbind].
  2:{ apply kwarg_err in En as [-> En]. apply tells_fail. intros (_ & (v & H) & _). exact (En v H). }
  destruct (kwarg "e" d) as [ve|err] eqn:Ee; cbn [rbind].
  2:{ apply kwarg_err in Ee as [-> Ee]. apply tells_fail. intros (_ & _ & v & H). exact (Ee v H). }
  pose proof (proj1 (kwarg_iff _ _ _) En) as Mn. pose proof (proj1 (kwarg_iff _ _ _) Ee) as Me.
  apply tells_pass; [split; [apply missing_has, Es|eauto]|].
  pose proof (kwarg_get _ _ _ En) as Gn. pose proof (kwarg_get _ _ _ Ee) as Ge. rewrite <- Gn, <- Ge. unfold RSAKey.
  apply tells_bind; [apply number_errs|apply tells_num|]. intros on Hn.
  apply tells_bind; [apply number_errs|apply tells_num|]. intros oe He.
  apply (tells_iff _ (on <> None /\ oe <> None)).
  { rewrite (get_none _ _ _ Mn), (get_none _ _ _ Me), <- !none_num, Hn, He. split; intros [A B]; split; intros X; [apply A|apply B|apply A|apply B]; congruence. }
  destruct on as [n|]; [|apply tells_fail; intros [A _]; congruence]. destruct oe as [e|]; [|apply tells_fail; intros [_ A]; congruence].
  apply tells_pass; [split; discriminate|]. pose proof (proj2 (num_iff _ _ _) Hn) as Nn. pose proof (proj2 (num_iff _ _ _) He) as Ne.
  destruct (rsa_public_ok n e) eqn:Ep; cbn [negb].
  2:{ apply tells_fail. intros (n' & e' & A & B & H). apply num_iff in A, B. apply rsa_public_iff in H. congruence. }
  apply rsa_public_iff in Ep as Hpub. apply tells_pass; [eauto 6|].
  destruct (truthy (dget (lit "d") d)) eqn:Ed.
  2:{ apply tells_skip_end; [intros H; apply H, unset_iff, Ed|apply tells_nil]. }
  apply tells_only; [intros H; apply unset_iff in H; congruence|].
  apply tells_bind; [apply number_errs|apply tells_num|]. intros od Hd.
  apply tells_bind; [apply number_errs|apply tells_num|]. intros op Hp.
  apply tells_bind; [apply number_errs|apply tells_num|]. intros oq Hq.
  apply tells_bind; [apply number_errs|apply tells_num|]. intros odp Hdp.
  apply tells_bind; [apply number_errs|apply tells_num|]. intros odq Hdq.
  apply tells_bind; [apply number_errs|apply tells_num|]. intros oqi Hqi.
  destruct od as [x|]; [|apply none_num in Hd; rewrite Hd in Ed; discriminate].
  exact (tells_private d n e x op oq odp odq oqi Hd Hp Hq Hdp Hdq Hqi Hr Hpub Nn Ne).
Qed.

(** ** Elliptic curves *)
Lemma curve_iff s c : curve_of s = Some c <-> exists name, In (name, c) curves /\ s = chars name.
Proof.
  unfold curve_of, curves. split.
  - destruct (eqs_spec s (lit "P-256")) as [->|_]; [intros [= <-]; exists "P-256"%string; cbn; auto|].
    destruct (eqs_spec s (lit "P-384")) as [->|_]; [intros [= <-]; exists "P-384"%string; cbn; auto|].
    destruct (eqs_spec s (lit "P-521")) as [->|_]; [intros [= <-]; exists "P-521"%string; cbn; auto|]. discriminate.
  - intros (name & [H|[H|[H|[]]]] & ->); injection H as <- <-; reflexivity.
Qed.
Lemma ec_private_iff c x y v : ec_private_ok C c v x y = true <-> ec_private C c x y v.
Proof.
  unfold ec_private_ok, ec_private. destruct (c_ec_mul C c v) as [x' y']. rewrite !andb_true_iff, !N.ltb_lt, !N.eqb_eq. split.
  - intros ((A & B) & -> & ->). auto.
  - intros (A & [= -> ->]). tauto.
Qed.
Lemma crv_iff d c : (exists name, In (name, c) curves /\ member d "crv" (PStr (chars name))) <-> get_curve (dget (lit "crv") d) = Ok c.
Proof.
  split.
  - intros (name & H1 & H2). apply member_get in H2. rewrite H2. cbn [get_curve]. rewrite (proj2 (curve_iff _ _) (ex_intro _ name (conj H1 eq_refl))). reflexivity.
  - intros H. unfold get_curve in H. destruct (dget (lit "crv") d) as [| | | |s| |] eqn:E; try (cbn in H; discriminate).
    destruct (curve_of s) as [c'|] eqn:Ec; [|discriminate]. injection H as ->. apply curve_iff in Ec as (name & H1 & ->). exists name. split; auto. rewrite <- E. apply get_member. congruence.
Qed.
Lemma tells_ec d : tells (ec_checks C d) (make_mat C (lit "EC") d).
Proof.
  unfold ec_checks, make_mat. change (eqs (lit "EC") (lit "oct")) with false. change (eqs (lit "EC") (lit "RSA")) with false. cbv iota. cbn [app].
  destruct (has (lit "self") d) eqn:Es; [apply tells_fail; intros [H _]; apply missing_has in H; congruence|].
  destruct (kwarg "crv" d) as [vc|err] eqn:Ec; cbn [rbind].
  2:{ apply kwarg_err in Ec as [-> Ec]. apply tells_fail. intros (_ & (v & H) & _). exact (Ec v H). }
  destruct (kwarg "x" d) as [vx|err] eqn:Ex; cbn [rbind].
  2:{ apply kwarg_err in Ex as [-> Ex]. apply tells_fail. intros (_ & _ & (v & H) & _). exact (Ex v H). }
  destruct (kwarg "y" d) as [vy|err] eqn:Ey; cbn [rbind].
  2:{ apply kwarg_err in Ey as [-> Ey]. apply tells_fail. intros (_ & _ & _ & v & H). exact (Ey v H). }
  pose proof (proj1 (kwarg_iff _ _ _) Ec) as Mc. pose proof (proj1 (kwarg_iff _ _ _) Ex) as Mx. pose proof (proj1 (kwarg_iff _ _ _) Ey) as My.
  apply tells_pass; [split; [apply missing_has, Es|eauto 6]|].
  pose proof (kwarg_get _ _ _ Ec) as Gc. pose proof (kwarg_get _ _ _ Ex) as Gx. pose proof (kwarg_get _ _ _ Ey) as Gy. rewrite <- Gx, <- Gy. unfold ECKey.
  destruct (get_curve vc) as [c|err] eqn:Eg; cbn [rbind].
  2:{ assert (Q : forall name c, In (name, c) curves -> ~ member d "crv" (PStr (chars name))).
      { intros name c H1 H2. assert (X : get_curve (dget (lit "crv") d) = Ok c) by (apply crv_iff; eauto). congruence. }
      assert (K : forall v, member d "crv" v -> v = vc) by (unfold member in *; congruence).
      destruct vc as [| | | |s|l|m]; cbn [get_curve hashable] in Eg;
        try (injection Eg as <-; first
          [apply tells_fail; intros H; destruct (H _ Mc) as [H1 H2]; first [eapply H1; reflexivity|eapply H2; reflexivity]
          |apply tells_pass; [intros v Hv; rewrite (K _ Hv); split; discriminate|]; apply tells_fail; intros (name & c & H1 & H2); exact (Q _ _ H1 H2)]).
      destruct (curve_of s); [discriminate|]. injection Eg as <-. apply tells_pass; [intros v Hv; rewrite (K _ Hv); split; discriminate|]. apply tells_fail. intros (name & c & H1 & H2). exact (Q _ _ H1 H2). }
  rewrite <- Gc in Eg. pose proof (proj2 (crv_iff d c) Eg) as (cname & Hc1 & Hc2).
  apply tells_pass. { intros v Hv. apply member_get in Hv. apply member_get in Hc2 as G'. rewrite G' in Hv. rewrite <- Hv. split; discriminate. }
  apply tells_pass; [eauto|].
  apply tells_bind; [apply number_errs|apply tells_num|]. intros ox Hx.
  apply tells_bind; [apply number_errs|apply tells_num|]. intros oy Hy.
  apply (tells_iff _ (ox <> None /\ oy <> None)).
  { rewrite (get_none _ _ _ Mx), (get_none _ _ _ My), <- !none_num, Hx, Hy. split; intros [A B]; split; intros X; [apply A|apply B|apply A|apply B]; congruence. }
  destruct ox as [x|]; [|apply tells_fail; intros [A _]; congruence]. destruct oy as [y|]; [|apply tells_fail; intros [_ A]; congruence].
  apply tells_pass; [split; discriminate|]. pose proof (proj2 (num_iff _ _ _) Hx) as Nx. pose proof (proj2 (num_iff _ _ _) Hy) as Ny.
  assert (U : forall name c', In (name, c') curves -> member d "crv" (PStr (chars name)) -> c' = c).
  { intros name c' H1 H2. assert (X : get_curve (dget (lit "crv") d) = Ok c') by (apply crv_iff; eauto). congruence. }
  destruct (on_curve c x y) eqn:Eo; cbn [negb].
  2:{ apply tells_fail. intros (name & c' & x' & y' & H1 & H2 & A & B & H). rewrite (U _ _ H1 H2) in H. apply num_iff in A, B. apply on_curve_spec in H. congruence. }
  apply tells_pass; [exists cname, c, x, y; do 4 (split; auto); apply on_curve_spec, Eo|].
  destruct (truthy (dget (lit "d") d)) eqn:Ed.
  2:{ apply tells_skip_end; [intros H; apply H, unset_iff, Ed|apply tells_nil]. }
  apply tells_only; [intros H; apply unset_iff in H; congruence|].
  apply tells_bind; [apply number_errs|apply tells_num|]. intros od Hd.
  destruct od as [v|]; [|apply none_num in Hd; rewrite Hd in Ed; discriminate].
  destruct (ec_private_ok C c v x y) eqn:Ep.
  - apply tells_pass; [|apply tells_nil]. exists cname, c, x, y, v. do 5 (split; [auto; apply num_iff; auto|]). apply ec_private_iff, Ep.
  - apply tells_fail. intros (name & c' & x' & y' & v' & H1 & H2 & A & B & D & H). rewrite (U _ _ H1 H2) in H. apply num_iff in A, B, D. apply ec_private_iff in H. congruence.
Qed.

Lemma key_tells v : recover_raises C -> tells (jwk_checks C v) (JsonWebKey C v).
Proof.
  intros Hr. unfold JsonWebKey, jwk_checks. destruct v as [| | | | | |d]; try (apply tells_fail; tauto).
  cbn [app]. destruct d as [|kv d0]; [apply tells_fail; congruence|]. set (d := kv :: d0). change (negb (truthy (PDict d))) with false. cbv iota.
  apply tells_pass; [discriminate|].
  assert (B : forall s, dget (lit "kty") d = PStr s -> member d "kty" (PStr s)) by (intros s E; rewrite <- E; apply get_member; congruence).
  assert (T : forall s, member d "kty" (PStr s) -> dget (lit "kty") d = PStr s) by (intros; apply member_get; auto).
  assert (Q : forall w, dget (lit "kty") d = w -> (forall s, w <> PStr s) -> ~ exists t, member d "kty" (PStr t) /\ In t [chars "oct"; chars "RSA"; chars "EC"]).
  { intros w E H (t & Ht & _). apply T in Ht. apply (H t). congruence. }
  destruct (dget (lit "kty") d) as [|b|z|f|kty|l|m] eqn:Ek; cbn [hashable];
    try (apply tells_fail; intros H; pose proof (get_member d "kty" ltac:(congruence)) as M; rewrite Ek in M; destruct (H _ M) as [H1 H2]; first [eapply H1; reflexivity|eapply H2; reflexivity]);
    (apply tells_pass; [intros t Ht; apply member_get in Ht; rewrite Ek in Ht; rewrite <- Ht; split; discriminate|]);
    try (apply tells_fail; eapply Q; [reflexivity|discriminate]).
  assert (O : forall a b : string, PStr (chars a) <> PStr (chars b) -> dget (lit "kty") d = PStr (chars a) -> ~ member d "kty" (PStr (chars b))) by (intros a b H E M; apply member_get in M; congruence).
  destruct (ins kty key_types) eqn:Ei; cbn [negb].
  2:{ apply tells_fail. intros (t & Ht & Hi). apply T in Ht. assert (t = kty) as -> by congruence. apply not_true_iff_false in Ei. apply Ei, ins_In. exact Hi. }
  apply ins_In in Ei. apply tells_pass; [exists kty; split; [apply B; reflexivity|exact Ei]|].
  destruct Ei as [<-|[<-|[<-|[]]]].
  - apply tells_map with (r := make_mat C (lit "oct") d); [destruct (make_mat C (lit "oct") d); reflexivity|].
    apply tells_tail; [unfold errs, only_if, oct_checks; cbn; repeat constructor; discriminate|apply tells_only; [apply B; reflexivity|apply tells_oct]|].
    intros a. apply tells_skip; [eapply (O "oct" "RSA")%string; [discriminate|exact Ek]|]. apply tells_skip_end; [eapply (O "oct" "EC")%string; [discriminate|exact Ek]|]. apply tells_nil.
  - apply tells_map with (r := make_mat C (lit "RSA") d); [destruct (make_mat C (lit "RSA") d); reflexivity|].
    apply tells_skip; [eapply (O "RSA" "oct")%string; [discriminate|exact Ek]|].
    apply tells_tail; [unfold errs, only_if, rsa_checks, number_checks; cbn; repeat constructor; discriminate|apply tells_only; [apply B; reflexivity|apply tells_rsa, Hr]|].
    intros a. apply tells_skip_end; [eapply (O "RSA" "EC")%string; [discriminate|exact Ek]|]. apply tells_nil.
  - apply tells_map with (r := make_mat C (lit "EC") d); [destruct (make_mat C (lit "EC") d); reflexivity|].
    apply tells_skip; [eapply (O "EC" "oct")%string; [discriminate|exact Ek]|]. apply tells_skip; [eapply (O "EC" "RSA")%string; [discriminate|exact Ek]|].
    apply tells_only; [apply B; reflexivity|apply tells_ec].
Qed.
Theorem c135 v err : recover_raises C ->
  (decided (jwk_checks C v) None err <-> match JsonWebKey C v with Ok _ => err = None | Err x => err = Some x end).
Proof. intros Hr. rewrite (key_tells v Hr err). destruct (JsonWebKey C v); reflexivity. Qed.

(** ** The dicts that describe a key *)
Lemma oct_iff d m : make_mat C (lit "oct") d = Ok m <-> missing d "self" /\ exists b v t, m = KOct b /\ member d "k" v /\ secret_text v t /\ url_octets t b.
Proof.
  unfold make_mat. change (eqs (lit "oct") (lit "oct")) with true. cbv iota. rewrite missing_has. split.
  - destruct (has (lit "self") d); [discriminate|]. intros H. split; auto. rb H. unfold OCTKey in H. rb H. rb H. injection H as <-.
    exists a1, a, a0. split; auto. split; [apply kwarg_iff; auto|]. split; [apply secret_iff; auto|apply url_octets_iff; auto].
  - intros (-> & b & v & t & -> & H1 & H2 & H3). apply kwarg_iff in H1. apply secret_iff in H2. apply url_octets_iff in H3.
    rewrite H1. cbn [rbind]. unfold OCTKey. rewrite H2. cbn [rbind]. rewrite H3. reflexivity.
Qed.
Lemma num_member d name n : num d name n -> exists v, kwarg name d = Ok v /\ dget (lit name) d = v /\ b64_to_int v = Ok (Some n).
Proof.
  intros H. pose proof H as (s & Hs & _). exists (PStr s). split; [apply kwarg_iff, Hs|]. apply member_get in Hs. split; auto. apply num_iff in H. congruence.
Qed.
Lemma rsa_iff d m : make_mat C (lit "RSA") d = Ok m <->
  missing d "self" /\ exists n e o, m = KRSA n e o /\ num d "n" n /\ num d "e" e /\ rsa_public n e /\
    match o with
    | None => unset d "d"
    | Some k => ~ unset d "d" /\ rsa_private_key C d n e k /\ rsa_private C n e k /\
        readable d "p" /\ readable d "q" /\ readable d "dp" /\ readable d "dq" /\ readable d "qi"
    end.
Proof.
  unfold make_mat. change (eqs (lit "RSA") (lit "oct")) with false. change (eqs (lit "RSA") (lit "RSA")) with true. cbv iota. rewrite missing_has. split.
  - destruct (has (lit "self") d); [discriminate|]. intros H. split; auto.
    destruct (kwarg "n" d) as [vn|] eqn:En; [|discriminate]. destruct (kwarg "e" d) as [ve|] eqn:Ee; [|discriminate]. cbn [rbind] in H.
    rewrite <- (kwarg_get _ _ _ En), <- (kwarg_get _ _ _ Ee) in H. unfold RSAKey in H.
    destruct (b64_to_int (dget (lit "n") d)) as [on|] eqn:Hn; [|discriminate]. destruct (b64_to_int (dget (lit "e") d)) as [oe|] eqn:He; [|discriminate].
    cbn [rbind] in H. destruct on as [n|], oe as [e|]; try discriminate. destruct (rsa_public_ok n e) eqn:Ep; [|discriminate]. cbn [negb] in H.
    apply rsa_public_iff in Ep. exists n, e. pose proof (proj2 (num_iff _ _ _) Hn) as Nn. pose proof (proj2 (num_iff _ _ _) He) as Ne. destruct (truthy (dget (lit "d") d)) eqn:Ed.
    + destruct (b64_to_int (dget (lit "d") d)) as [od|] eqn:Hd; [|discriminate]. destruct (b64_to_int (dget (lit "p") d)) as [op|] eqn:Hp; [|discriminate].
      destruct (b64_to_int (dget (lit "q") d)) as [oq|] eqn:Hq; [|discriminate]. destruct (b64_to_int (dget (lit "dp") d)) as [odp|] eqn:Hdp; [|discriminate].
      destruct (b64_to_int (dget (lit "dq") d)) as [odq|] eqn:Hdq; [|discriminate]. destruct (b64_to_int (dget (lit "qi") d)) as [oqi|] eqn:Hqi; [|discriminate].
      cbn [rbind] in H. destruct od as [x|]; [|discriminate].
      apply (private_ok d n e x op oq odp odq oqi Hd Hp Hq Hdp Hdq Hqi m Ep) in H as (k & -> & H1 & H2).
      exists (Some k). do 4 (split; [auto|]). cbv iota. rewrite unset_iff, Ed. rewrite !readable_iff, Hp, Hq, Hdp, Hdq, Hqi. split; [discriminate|]. do 2 (split; [auto|]). do 4 (split; [eauto|]). eauto.
    + injection H as <-. exists None. do 4 (split; [auto|]). apply unset_iff, Ed.
  - intros (-> & n & e & o & -> & Hn & He & Hpub & Ho).
    destruct (num_member _ _ _ Hn) as (vn & An & Bn & Dn). destruct (num_member _ _ _ He) as (ve & Ae & Be & De). rewrite An, Ae. cbn [rbind]. unfold RSAKey. rewrite Dn, De. cbn [rbind].
    replace (rsa_public_ok n e) with true by (symmetry; apply rsa_public_iff; auto). cbn [negb]. destruct o as [k|].
    + destruct Ho as (U & P1 & P2 & R1 & R2 & R3 & R4 & R5). rewrite unset_iff in U. destruct (truthy (dget (lit "d") d)); [|congruence].
      pose proof P1 as (Hd & _). apply num_iff in Hd. apply readable_iff in R1 as (op & Hp), R2 as (oq & Hq), R3 as (odp & Hdp), R4 as (odq & Hdq), R5 as (oqi & Hqi).
      rewrite Hd, Hp, Hq, Hdp, Hdq, Hqi. cbn [rbind].
      exact (proj2 (private_ok d n e (r_d k) op oq odp odq oqi Hd Hp Hq Hdp Hdq Hqi (KRSA n e (Some k)) Hpub) (ex_intro _ k (conj eq_refl (conj P1 P2)))).
    + apply unset_iff in Ho. rewrite Ho. reflexivity.
Qed.
Lemma ec_iff d m : make_mat C (lit "EC") d = Ok m <->
  missing d "self" /\ exists c x y o, m = KEC c x y o /\ (exists name, In (name, c) curves /\ member d "crv" (PStr (chars name))) /\ num d "x" x /\ num d "y" y /\ curve_point c x y /\
    match o with None => unset d "d" | Some v => ~ unset d "d" /\ num d "d" v /\ ec_private C c x y v end.
Proof.
  unfold make_mat. change (eqs (lit "EC") (lit "oct")) with false. change (eqs (lit "EC") (lit "RSA")) with false. cbv iota. rewrite missing_has. split.
  - destruct (has (lit "self") d); [discriminate|]. intros H. split; auto. rb H. rb H. rb H.
    pose proof (kwarg_get _ _ _ E) as G. pose proof (kwarg_get _ _ _ E0) as G0. pose proof (kwarg_get _ _ _ E1) as G1.
    unfold ECKey in H. rb H. rb H. rb H. destruct a3 as [x|], a4 as [y|]; try discriminate. destruct (on_curve a2 x y) eqn:Eo; [|discriminate]. cbn [negb] in H.
    exists a2, x, y. rewrite <- G in E2. rewrite <- G0 in E3. rewrite <- G1 in E4. apply crv_iff in E2. apply num_iff in E3, E4. apply on_curve_spec in Eo. destruct (truthy (dget (lit "d") d)) eqn:Ed.
    + rb H. destruct a3 as [v|]; [|discriminate]. destruct (ec_private_ok C a2 v x y) eqn:Ep; [|discriminate]. injection H as <-. exists (Some v). do 5 (split; [auto|]).
      cbv iota. rewrite unset_iff, Ed, num_iff. split; [discriminate|]. split; auto. apply ec_private_iff, Ep.
    + injection H as <-. exists None. do 5 (split; [auto|]). apply unset_iff, Ed.
  - intros (-> & c & x & y & o & -> & Hc & Hx & Hy & Hp & Ho). pose proof Hc as (name & _ & Mc). apply kwarg_iff in Mc as Kc. apply member_get in Mc as Gc. apply crv_iff in Hc. rewrite Gc in Hc.
    destruct (num_member _ _ _ Hx) as (vx & Ax & Bx & Dx). destruct (num_member _ _ _ Hy) as (vy & Ay & By & Dy). rewrite Kc, Ax, Ay. cbn [rbind]. unfold ECKey. rewrite Hc, Dx, Dy. cbn [rbind].
    apply on_curve_spec in Hp. rewrite Hp. cbn [negb]. destruct o as [v|].
    + destruct Ho as (U & Hv & P). rewrite unset_iff in U. destruct (truthy (dget (lit "d") d)); [|congruence]. apply num_iff in Hv. rewrite Hv. cbn [rbind]. apply ec_private_iff in P. rewrite P. reflexivity.
    + apply unset_iff in Ho. rewrite Ho. reflexivity.
Qed.
Theorem c15 v k : JsonWebKey C v = Ok k <-> exists d, v = PDict d /\ describes C d (jmat k) /\ jdata k = without_none d.
Proof.
  split.
  - intros H. destruct (JsonWebKey_ok _ _ _ H) as (d & kty & -> & Hne & Hk & Hi & Hm & Hd & Ht & _). exists d. split; auto. rewrite without_none_full. split; auto.
    unfold describes. destruct (jmat k) as [s|n e o|c x y o] eqn:Ej; cbn [mat_kty] in Ht; subst kty.
    + apply oct_iff in Hm as (M & b & w & t & E & H1 & H2 & H3). injection E as <-. exact (conj M (conj Hk (ex_intro _ w (ex_intro _ t (conj H1 (conj H2 H3)))))).
    + apply rsa_iff in Hm as (M & n' & e' & o' & E & H1 & H2 & H3 & H4). injection E as <- <- <-. exact (conj M (conj Hk (conj H1 (conj H2 (conj H3 H4))))).
    + apply ec_iff in Hm as (M & c' & x' & y' & o' & E & H1 & H2 & H3 & H4 & H5). injection E as <- <- <- <-. exact (conj M (conj Hk (conj H1 (conj H2 (conj H3 (conj H4 H5)))))).
  - intros (d & -> & (M & H) & Hd). destruct k as [jd m]. cbn [jmat jdata] in *. rewrite without_none_full in Hd. subst jd.
    assert (F : forall t, In t key_types -> member d "kty" (PStr t) -> make_mat C t d = Ok m -> JsonWebKey C (PDict d) = Ok {| jdata := full d; jmat := m |}).
    { intros t Ht Mt Hm. unfold JsonWebKey. replace (negb (truthy (PDict d))) with false by (destruct d; [discriminate|reflexivity]).
      apply (member_get d "kty") in Mt. rewrite Mt. replace (ins t key_types) with true by (symmetry; apply ins_In; auto). cbn [negb]. rewrite Hm. reflexivity. }
    destruct m as [s|n e o|c x y o]; cbn [describes] in H.
    + destruct H as (K & w & t & H1 & H2 & H3). apply (F (lit "oct")); [cbn; auto|exact K|]. apply oct_iff. split; auto. eauto 8.
    + destruct H as (K & H1 & H2 & H3 & H4). apply (F (lit "RSA")); [cbn; auto|exact K|]. apply rsa_iff. split; auto. exists n, e, o. auto.
    + destruct H as (K & H1 & H2 & H3 & H4 & H5). apply (F (lit "EC")); [cbn; auto|exact K|]. apply ec_iff. split; auto. exists c, x, y, o. auto 8.
Qed.

(** ** Raw keys *)
Lemma raw_none F x : no_file F x -> parse_raw F x = Ok x.
Proof. unfold parse_raw. intros [-> | ->]; reflexivity. Qed.
Lemma kty_in m : ins (mat_kty m) key_types = true. Proof. destruct m; reflexivity. Qed.
Lemma raw_nul F x alg pub format options : linux F -> In 0 x -> In alg [chars "oct"; chars "RSA"; chars "EC"] -> key_parse C F x alg pub format options = Err ValueError.
Proof.
  intros (L & _) H Ha. unfold key_parse. replace (ins alg key_types) with true by (symmetry; apply ins_In; exact Ha). unfold parse_raw. rewrite (L _ H). reflexivity.
Qed.
Lemma raw_long F x alg pub format options : linux F -> ~ In 0 x -> ~ In 47 x -> (255 < List.length x)%nat -> In alg [chars "oct"; chars "RSA"; chars "EC"] ->
  key_parse C F x alg pub format options = Err OSError.
Proof.
  intros (_ & L & _) H0 H1 H2 Ha. unfold key_parse. replace (ins alg key_types) with true by (symmetry; apply ins_In; exact Ha). unfold parse_raw. rewrite (L _ H0 H1 H2). reflexivity.
Qed.
Lemma raw_secret F x : no_file F x -> bytes_ok x -> exists k, key_parse C F x (lit "oct") false (lit "der") [] = Ok k /\ jmat k = KOct x.
Proof.
  intros H Hx. unfold key_parse. change (ins (lit "oct") key_types) with true. cbv iota. rewrite (raw_none _ _ H). cbn [rbind]. apply p_parse_oct. exact Hx.
Qed.
Lemma raw_file F x b : F x = Content b -> bytes_ok b -> exists k, key_parse C F x (lit "oct") false (lit "der") [] = Ok k /\ jmat k = KOct b.
Proof.
  intros H Hx. unfold key_parse, parse_raw. change (ins (lit "oct") key_types) with true. cbv iota. rewrite H. cbn [rbind]. apply p_parse_oct. exact Hx.
Qed.
Lemma raw_export F d k : pem_contract C -> JsonWebKey C (PDict d) = Ok k -> nonzero_coords (jmat k) -> mat_kty (jmat k) <> lit "oct" ->
  (forall pub x raw, jwk_export C k pub = Ok raw -> (x = raw /\ no_file F raw) \/ F x = Content raw -> (pub = false -> has_private (jmat k) = true) ->
     exists k', key_parse C F x (mat_kty (jmat k)) pub (lit "pem") [] = Ok k' /\ jmat k' = if pub then public_part (jmat k) else jmat k) /\
  (exists raw, jwk_export C k true = Ok raw) /\ (has_private (jmat k) = true -> exists raw, jwk_export C k false = Ok raw).
Proof.
  intros H1 H2 H3 H4. destruct (p_parse_export C d k H1 H2 H3 H4) as [P1 (raw2 & k2 & A1 & A2 & A3)].
  split; [|split; [eauto|intros H; destruct (P1 H) as (r & k' & B & _); eauto]].
  intros pub x raw He Hx Hp. unfold key_parse. rewrite kty_in.
  assert (R : parse_raw F x = Ok raw) by (destruct Hx as [[-> Hx]|Hx]; [apply raw_none, Hx|unfold parse_raw; rewrite Hx; reflexivity]).
  rewrite R. cbn [rbind]. destruct pub.
  - assert (raw2 = raw) as -> by congruence. eauto.
  - destruct (P1 (Hp eq_refl)) as (r & k' & B1 & B2 & B3). assert (r = raw) as -> by congruence. eauto.
Qed.
Lemma raw_markers F x m : In m markers -> (no_file F x /\ occurs m x) \/ (exists b, F x = Content b /\ occurs m b) -> oct_key_parse F x (lit "pem") = Err InvalidKey.
Proof.
  intros Hm H. unfold oct_key_parse. destruct H as [[H1 H2]|(b & H1 & H2)].
  - rewrite (raw_none _ _ H1). apply (p_oct_parse _ m Hm H2).
  - unfold parse_raw. rewrite H1. apply (p_oct_parse _ m Hm H2).
Qed.
End Key.

(** ** C15, C19, C20 *)
Lemma r_export C d k s pub : JsonWebKey C (PDict d) = Ok k -> jmat k = KOct s -> s <> [] -> jwk_export C k pub <> Ok (rfc4648 s).
Proof.
  intros Hk Hs Hne. rewrite <- b64encode_rfc; [eapply p_export; eauto|].
  apply JsonWebKey_ok in Hk as (d' & kty & _ & _ & _ & _ & _ & _ & _ & W). rewrite Hs in W. exact W.
Qed.
Lemma decodes_num d name n : decodes_to d (lit name) n -> num d name n.
Proof. intros (s & H & E). apply num_iff. unfold dget. rewrite H. exact E. Qed.
Lemma r_construct_only C v k : JsonWebKey C v = Ok k ->
  exists d kty, v = PDict d /\ d <> [] /\ lookup (lit "kty") d = Some (PStr kty) /\
    ((kty = lit "oct" /\ (exists s, jmat k = KOct s) /\
        exists kv, lookup (lit "k") d = Some kv /\ (is_string kv \/ (exists z, kv = PInt z) \/ exists b, kv = PBool b)) \/
     (kty = lit "RSA" /\ exists n e o, jmat k = KRSA n e o /\ rsa_public n e /\
        num d "n" n /\ num d "e" e /\
        (forall p, o = Some p -> num d "d" (r_d p) /\ rsa_private_ok C n e p = true)) \/
     (kty = lit "EC" /\ exists c x y o, jmat k = KEC c x y o /\ curve_point c x y /\
        lookup (lit "crv") d = Some (PStr (curve_name c)) /\
        num d "x" x /\ num d "y" y /\
        (forall p, o = Some p -> num d "d" p /\ 0 < p < curve_order c /\ c_ec_mul C c p = (x, y)))).
Proof.
  intros H. apply p_construct_only in H as (d & kty & H1 & H2 & H3 & H4). exists d, kty. do 3 (split; [auto|]).
  destruct H4 as [H4|[(Hk & n & e & o & A1 & A2 & A3 & A4 & A5)|(Hk & c & x & y & o & A1 & A2 & A3 & A4 & A5 & A6)]]; [left; exact H4|right; left|right; right].
  - split; [auto|]. exists n, e, o. do 2 (split; [auto|]). do 2 (split; [apply decodes_num; auto|]). intros p Hp. destruct (A5 p Hp) as (B1 & B2). split; [apply decodes_num|]; auto.
  - split; [auto|]. exists c, x, y, o. do 3 (split; [auto|]). do 2 (split; [apply decodes_num; auto|]). intros p Hp. destruct (A6 p Hp) as (B1 & B2). split; [apply decodes_num|]; auto.
Qed.
Lemma r_get_key keys ks v : JsonWebKeySet keys = Ok ks -> (forall l, v <> PList l) -> (forall d, v <> PDict d) ->
  (forall k, In k ks -> same (kid k) v -> jwks_get_key ks v = Some k) /\
  ((forall k, In k ks -> ~ same (kid k) v) -> jwks_get_key ks v = None).
Proof. intros H H1 H2. apply (p_get_key keys); auto. destruct v; try reflexivity; [destruct (H1 l)|destruct (H2 d)]; reflexivity. Qed.
