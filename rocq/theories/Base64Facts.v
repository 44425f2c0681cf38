(** Facts about Base64.v. *)
From Coq Require Import List NArith ZArith Bool Lia ZifyBool ZifyNat ZifyN.
From Verif Require Import Base BaseFacts Base64 SpecCodec.
Import ListNotations.
Open Scope N_scope.
Ltac Zify.zify_post_hook ::= Z.div_mod_to_equations.

(** Induction over three-byte blocks. *)
Lemma block3_ind (P : list N -> Prop) :
  P [] -> (forall a, P [a]) -> (forall a b, P [a; b]) ->
  (forall a b c r, P r -> P (a :: b :: c :: r)) -> forall l, P l.
Proof.
  intros H0 H1 H2 H3 l.
  assert (P l /\ (forall a, P (a :: l)) /\ (forall a b, P (a :: b :: l))) as [H _]; auto.
  induction l as [|x l (IH1 & IH2 & IH3)]; repeat split; auto.
Qed.

Lemma forall_lt64 (P : N -> bool) :
  forallb P (map N.of_nat (seq 0 64)) = true -> forall v, v < 64 -> P v = true.
Proof.
  intros H v Hv. rewrite forallb_forall in H. apply H.
  apply in_map_iff. exists (N.to_nat v). split; [lia|]. apply in_seq. lia.
Qed.
Lemma forall_lt256 (P : N -> bool) :
  forallb P (map N.of_nat (seq 0 256)) = true -> forall v, v < 256 -> P v = true.
Proof.
  intros H v Hv. rewrite forallb_forall in H. apply H.
  apply in_map_iff. exists (N.to_nat v). split; [lia|]. apply in_seq. lia.
Qed.

(** Characters of the URL-safe alphabet, with "=" excluded. *)
Definition url_char (c : N) : bool :=
  ((65 <=? c) && (c <? 91)) || ((97 <=? c) && (c <? 123)) || ((48 <=? c) && (c <? 58))
  || (c =? 45) || (c =? 95).

Lemma b64char_url_char v : v < 64 -> url_char (b64char true v) = true.
Proof. apply (forall_lt64 (fun v => url_char (b64char true v))). vm_compute; auto. Qed.
Lemma b64char_not_pad u v : v < 64 -> (b64char u v =? PAD) = false.
Proof.
  intros H. apply negb_true_iff. destruct u;
  [apply (forall_lt64 (fun v => negb (b64char true v =? PAD))) | apply (forall_lt64 (fun v => negb (b64char false v =? PAD)))];
  vm_compute; auto.
Qed.
Lemma b64val_url v : v < 64 -> b64val (url_to_std (b64char true v)) = Some v.
Proof.
  intros H.
  assert (K : (match b64val (url_to_std (b64char true v)) with Some w => w =? v | None => false end) = true).
  { apply (forall_lt64 (fun v => match b64val (url_to_std (b64char true v)) with Some w => w =? v | None => false end)); auto. }
  destruct (b64val _); [|discriminate]. f_equal; lia.
Qed.
Lemma b64val_std v : v < 64 -> b64val (b64char false v) = Some v.
Proof.
  intros H.
  assert (K : (match b64val (b64char false v) with Some w => w =? v | None => false end) = true).
  { apply (forall_lt64 (fun v => match b64val (b64char false v) with Some w => w =? v | None => false end)); auto. }
  destruct (b64val _); [|discriminate]. f_equal; lia.
Qed.
Lemma url_to_std_pad v : v < 64 -> (url_to_std (b64char true v) =? PAD) = false.
Proof.
  intros H; apply negb_true_iff.
  apply (forall_lt64 (fun v => negb (url_to_std (b64char true v) =? PAD))); auto.
Qed.

(** The unpadded encoding, by blocks. *)
Fixpoint b64raw (l : bytes) : bytes :=
  match l with
  | [] => []
  | [a] => [b64char true (a / 4); b64char true ((a mod 4) * 16)]
  | [a; b] => [b64char true (a / 4); b64char true ((a mod 4) * 16 + b / 16); b64char true ((b mod 16) * 4)]
  | a :: b :: c :: r =>
      b64char true (a / 4) :: b64char true ((a mod 4) * 16 + b / 16)
        :: b64char true ((b mod 16) * 4 + c / 64) :: b64char true (c mod 64) :: b64raw r
  end.

Lemma rstrip_cons c r : (c =? PAD) = false -> rstrip_pad (c :: r) = c :: rstrip_pad r.
Proof. intros H; simpl. rewrite H. destruct (rstrip_pad r); auto. Qed.

Lemma base64url_encode_raw l : bytes_ok l -> base64url_encode l = b64raw l.
Proof.
  unfold base64url_encode. induction l as [|a|a b|a b c r IH] using block3_ind; intros H.
  - reflexivity.
  - cbn [b64encode b64raw]. inversion H; subst.
    rewrite !rstrip_cons by (apply b64char_not_pad; lia). reflexivity.
  - cbn [b64encode b64raw]. inversion H; subst. inversion H3; subst.
    rewrite !rstrip_cons by (apply b64char_not_pad; lia). reflexivity.
  - cbn [b64encode b64raw]. inversion H; subst. inversion H3; subst. inversion H5; subst.
    rewrite !rstrip_cons by (apply b64char_not_pad; lia). rewrite IH; auto.
Qed.

Lemma b64raw_url l : bytes_ok l -> Forall (fun c => url_char c = true) (b64raw l).
Proof.
  induction l as [|a|a b|a b c r IH] using block3_ind; intros H.
  - constructor.
  - inversion H; subst. repeat constructor; apply b64char_url_char; lia.
  - inversion H; subst. inversion H3; subst. repeat constructor; apply b64char_url_char; lia.
  - inversion H; subst. inversion H3; subst. inversion H5; subst.
    cbn [b64raw]. repeat constructor; try (apply b64char_url_char; lia). auto.
Qed.

Lemma base64url_encode_url l : bytes_ok l -> Forall (fun c => url_char c = true) (base64url_encode l).
Proof. intros; rewrite base64url_encode_raw by auto; apply b64raw_url; auto. Qed.

(** Decoder steps on one encoded character. *)
Lemma a2b_q0 v r l p : v < 64 -> a2b (url_to_std (b64char true v) :: r) 0 l p = a2b r 1 v 0.
Proof. intros; cbn [a2b]. rewrite url_to_std_pad, b64val_url by auto. reflexivity. Qed.
Lemma a2b_q1 v r l p : v < 64 ->
  a2b (url_to_std (b64char true v) :: r) 1 l p = let! t := a2b r 2 (v mod 16) 0 in Ok ((l * 4 + v / 16) :: t).
Proof. intros; cbn [a2b]. rewrite url_to_std_pad, b64val_url by auto. reflexivity. Qed.
Lemma a2b_q2 v r l p : v < 64 ->
  a2b (url_to_std (b64char true v) :: r) 2 l p = let! t := a2b r 3 (v mod 4) 0 in Ok ((l * 16 + v / 4) :: t).
Proof. intros; cbn [a2b]. rewrite url_to_std_pad, b64val_url by auto. reflexivity. Qed.
Lemma a2b_q3 v r l p : v < 64 ->
  a2b (url_to_std (b64char true v) :: r) 3 l p = let! t := a2b r 0 0 0 in Ok ((l * 64 + v) :: t).
Proof. intros; cbn [a2b]. rewrite url_to_std_pad, b64val_url by auto. reflexivity. Qed.

Lemma a2b_pad2 r l : a2b (PAD :: PAD :: r) 2 l 0 = Ok [].
Proof. reflexivity. Qed.
Lemma a2b_pad3 r l : a2b (PAD :: r) 3 l 0 = Ok [].
Proof. reflexivity. Qed.

Lemma b64raw_length_mod l :
  (length (b64raw l) mod 4 = match length l mod 3 with 0 => 0 | 1 => 2 | _ => 3 end)%nat.
Proof.
  induction l as [|a|a b|a b c r IH] using block3_ind; try reflexivity.
  cbn [b64raw length].
  replace (S (S (S (S (length (b64raw r))))))%nat with (length (b64raw r) + 1 * 4)%nat by lia.
  rewrite PeanoNat.Nat.mod_add by lia. rewrite IH.
  replace (S (S (S (length r))))%nat with (length r + 1 * 3)%nat by lia.
  rewrite PeanoNat.Nat.mod_add by lia. auto.
Qed.

(** RFC 4648 length: ceil(8 n / 6). *)
Lemma b64raw_length l : (length (b64raw l) = (8 * length l + 5) / 6)%nat.
Proof.
  induction l as [|a|a b|a b c r IH] using block3_ind; try reflexivity.
  cbn [b64raw length]. rewrite IH.
  replace (8 * S (S (S (length r))) + 5)%nat with ((8 * length r + 5) + 4 * 6)%nat by lia.
  rewrite PeanoNat.Nat.div_add by lia. lia.
Qed.

(** Decoding an unpadded encoding followed by at least the needed padding. *)
Lemma a2b_raw l n : bytes_ok l ->
  (match length l mod 3 with 0 => n = 0 | 1 => 2 <= n | _ => 1 <= n end)%nat ->
  a2b (map url_to_std (b64raw l ++ repeat PAD n)) 0 0 0 = Ok l.
Proof.
  induction l as [|a|a b|a b c r IH] using block3_ind; intros H Hn.
  - cbn in Hn. subst. reflexivity.
  - cbn in Hn. destruct n as [|[|n]]; try lia. inversion H; subst.
    cbn [b64raw app map]. rewrite a2b_q0, a2b_q1 by lia.
    cbn [repeat map]. change (url_to_std PAD) with PAD. rewrite ?a2b_pad2, ?a2b_pad3. cbn.
    repeat f_equal; lia.
  - cbn in Hn. destruct n as [|n]; try lia. inversion H; subst. inversion H3; subst.
    cbn [b64raw app map]. rewrite a2b_q0, a2b_q1, a2b_q2 by lia.
    cbn [repeat map]. change (url_to_std PAD) with PAD. rewrite ?a2b_pad2, ?a2b_pad3. cbn.
    repeat f_equal; lia.
  - inversion H; subst. inversion H3; subst. inversion H5; subst.
    cbn [b64raw app map]. rewrite a2b_q0, a2b_q1, a2b_q2, a2b_q3 by lia.
    rewrite IH; auto.
    + cbn. repeat f_equal; lia.
    + cbn [length] in Hn.
      replace (S (S (S (length r))))%nat with (length r + 1 * 3)%nat in Hn by lia.
      rewrite PeanoNat.Nat.mod_add in Hn by lia. auto.
Qed.

Theorem base64url_roundtrip l : bytes_ok l -> base64url_decode (base64url_encode l) = Ok l.
Proof.
  intros H. unfold base64url_decode, urlsafe_b64decode, b64decode.
  rewrite base64url_encode_raw by auto. apply a2b_raw; auto.
  rewrite b64raw_length_mod.
  pose proof (PeanoNat.Nat.mod_upper_bound (length l) 3).
  destruct (length l mod 3)%nat as [|[|[|]]]; lia.
Qed.

Lemma base64url_encode_inj a b :
  bytes_ok a -> bytes_ok b -> base64url_encode a = base64url_encode b -> a = b.
Proof.
  intros Ha Hb H. apply base64url_roundtrip in Ha, Hb. congruence.
Qed.

(** [base64.b64encode] is inverted by [base64.b64decode]. *)
Lemma a2b_s0 v r l p : v < 64 -> a2b (b64char false v :: r) 0 l p = a2b r 1 v 0.
Proof. intros; cbn [a2b]. rewrite b64char_not_pad, b64val_std by auto. reflexivity. Qed.
Lemma a2b_s1 v r l p : v < 64 ->
  a2b (b64char false v :: r) 1 l p = let! t := a2b r 2 (v mod 16) 0 in Ok ((l * 4 + v / 16) :: t).
Proof. intros; cbn [a2b]. rewrite b64char_not_pad, b64val_std by auto. reflexivity. Qed.
Lemma a2b_s2 v r l p : v < 64 ->
  a2b (b64char false v :: r) 2 l p = let! t := a2b r 3 (v mod 4) 0 in Ok ((l * 16 + v / 4) :: t).
Proof. intros; cbn [a2b]. rewrite b64char_not_pad, b64val_std by auto. reflexivity. Qed.
Lemma a2b_s3 v r l p : v < 64 ->
  a2b (b64char false v :: r) 3 l p = let! t := a2b r 0 0 0 in Ok ((l * 64 + v) :: t).
Proof. intros; cbn [a2b]. rewrite b64char_not_pad, b64val_std by auto. reflexivity. Qed.
Theorem b64_roundtrip l : bytes_ok l -> b64decode (b64encode false l) = Ok l.
Proof.
  unfold b64decode. induction l as [|a|a b|a b c r IH] using block3_ind; intros H.
  - reflexivity.
  - inversion H; subst. cbn [b64encode]. rewrite a2b_s0, a2b_s1 by lia. rewrite a2b_pad2. cbn.
    repeat f_equal; lia.
  - inversion H; subst. inversion H3; subst. cbn [b64encode]. rewrite a2b_s0, a2b_s1, a2b_s2 by lia. rewrite a2b_pad3. cbn.
    repeat f_equal; lia.
  - inversion H; subst. inversion H3; subst. inversion H5; subst.
    cbn [b64encode]. rewrite a2b_s0, a2b_s1, a2b_s2, a2b_s3 by lia.
    rewrite IH; auto. cbn. repeat f_equal; lia.
Qed.

(** Whatever is decoded is a byte string. *)
Lemma b64val_lt c v : b64val c = Some v -> v < 64.
Proof.
  unfold b64val. repeat match goal with |- context [if ?x then _ else _] => destruct x eqn:? end; intros H; inversion H; lia.
Qed.
Lemma a2b_bytes_ok l : forall qp left pads b,
  qp < 4 -> (qp = 1 -> left < 64) -> (qp = 2 -> left < 16) -> (qp = 3 -> left < 4) ->
  a2b l qp left pads = Ok b -> bytes_ok b.
Proof.
  induction l as [|c l IH]; intros qp left pads b Hq H1 H2 H3; cbn [a2b].
  - destruct (qp =? 0); intros H; inversion H; constructor.
  - destruct (c =? PAD).
    { destruct (2 <=? qp); [destruct (4 <=? _)|]; intros H; eauto. inversion H; constructor. }
    destruct (b64val c) as [v|] eqn:E; [|apply IH; auto].
    apply b64val_lt in E.
    destruct (qp =? 0) eqn:Q0; [apply IH; lia|].
    destruct (qp =? 1) eqn:Q1.
    { destruct (a2b l 2 (v mod 16) 0) eqn:R; cbn; intros H; inversion H; subst.
      constructor; [lia|]. eapply IH; [..|exact R]; lia. }
    destruct (qp =? 2) eqn:Q2.
    { destruct (a2b l 3 (v mod 4) 0) eqn:R; cbn; intros H; inversion H; subst.
      constructor; [lia|]. eapply IH; [..|exact R]; lia. }
    destruct (a2b l 0 0 0) eqn:R; cbn; intros H; inversion H; subst.
    constructor; [lia|]. eapply IH; [..|exact R]; lia.
Qed.
Lemma b64decode_bytes_ok l b : b64decode l = Ok b -> bytes_ok b.
Proof. apply a2b_bytes_ok; lia. Qed.
Lemma base64url_decode_bytes_ok l b : base64url_decode l = Ok b -> bytes_ok b.
Proof. apply a2b_bytes_ok; lia. Qed.
Lemma a2b_err l : forall qp left pads e, a2b l qp left pads = Err e -> e = BinasciiError.
Proof.
  induction l as [|c l IH]; intros qp left pads e; cbn [a2b].
  - destruct (qp =? 0); congruence.
  - destruct (c =? PAD).
    { destruct (2 <=? qp); [destruct (4 <=? _)|]; eauto. congruence. }
    destruct (b64val c) as [v|]; eauto.
    destruct (qp =? 0); eauto.
    destruct (qp =? 1); [|destruct (qp =? 2)];
    match goal with |- context [a2b l ?a ?b ?c] => destruct (a2b l a b c) eqn:R end; cbn; intros H; inversion H; subst; eauto.
Qed.
Lemma base64url_decode_err l e : base64url_decode l = Err e -> e = BinasciiError.
Proof. apply a2b_err. Qed.

(** The encoder meets the bit-level specification of RFC 4648. *)
Lemma alpha_nth v : v < 64 -> nth (N.to_nat v) url_alphabet 0 = b64char true v.
Proof.
  intros H. apply N.eqb_eq.
  apply (forall_lt64 (fun v => nth (N.to_nat v) url_alphabet 0 =? b64char true v)); auto.
Qed.
Definition chk (a : N) : bool :=
  match bits8 a with
  | [x7; x6; x5; x4; x3; x2; x1; x0] =>
      let z b := if b : bool then 1 else 0 in
      (a / 4 =? num_of_bits [x7; x6; x5; x4; x3; x2])
      && (a mod 4 =? 2 * z x1 + z x0)
      && (a / 16 =? 8 * z x7 + 4 * z x6 + 2 * z x5 + z x4)
      && (a mod 16 =? 8 * z x3 + 4 * z x2 + 2 * z x1 + z x0)
      && (a / 64 =? 2 * z x7 + z x6)
      && (a mod 64 =? num_of_bits [x5; x4; x3; x2; x1; x0])
  | _ => false
  end.
Lemma chk_all a : a < 256 -> chk a = true.
Proof. apply (forall_lt256 chk). vm_compute; auto. Qed.

Lemma num6 a b c d e f : num_of_bits [a; b; c; d; e; f] =
  let z b := if b : bool then 1 else 0 in
  32 * z a + 16 * z b + 8 * z c + 4 * z d + 2 * z e + z f.
Proof. destruct a, b, c, d, e, f; reflexivity. Qed.

Ltac bits_of a H :=
  let K := fresh in
  pose proof (chk_all a H) as K; unfold chk in K;
  let E := fresh "E" in
  destruct (bits8 a) as [|? [|? [|? [|? [|? [|? [|? [|? [|? ?]]]]]]]]] eqn:E; try discriminate K;
  rewrite ?num6 in K; cbv zeta in K;
  repeat match goal with
  | K : (_ && _) = true |- _ => apply andb_true_iff in K; destruct K
  end;
  repeat match goal with K : (_ =? _) = true |- _ => apply N.eqb_eq in K end.

Theorem base64url_encode_rfc l : bytes_ok l -> base64url_encode l = rfc4648_url l.
Proof.
  intros H. rewrite base64url_encode_raw by auto. unfold rfc4648_url, bits.
  induction l as [|a|a b|a b c r IH] using block3_ind.
  - reflexivity.
  - inversion H; subst. bits_of a H2. cbn [flat_map]. rewrite E. cbn [app groups6 length repeat Nat.sub map b64raw].
    rewrite !num6. cbv zeta.
    f_equal; [|f_equal].
    + rewrite <- alpha_nth by lia. do 2 f_equal. lia.
    + rewrite <- alpha_nth by lia. do 2 f_equal. lia.
  - inversion H; subst. inversion H3; subst. bits_of a H2. bits_of b H4.
    cbn [flat_map]. rewrite E, E0. cbn [app groups6 length repeat Nat.sub map b64raw].
    rewrite !num6. cbv zeta.
    f_equal; [|f_equal; [|f_equal]]; rewrite <- alpha_nth by lia; do 2 f_equal; lia.
  - inversion H; subst. inversion H3; subst. inversion H5; subst.
    bits_of a H2. bits_of b H4. bits_of c H6.
    cbn [flat_map]. rewrite E, E0, E1. cbn [app groups6 map b64raw].
    rewrite !num6. cbv zeta.
    f_equal; [|f_equal; [|f_equal; [|f_equal]]]; auto; rewrite <- alpha_nth by lia; do 2 f_equal; lia.
Qed.

(** The alphabet contains neither a dot nor padding nor whitespace. *)
Lemma url_char_lt c : url_char c = true -> c < 128.
Proof. unfold url_char; lia. Qed.
Lemma url_char_not_dot c : url_char c = true -> c <> 46.
Proof. unfold url_char; lia. Qed.
