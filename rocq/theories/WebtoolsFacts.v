(** Facts about Webtools.v. *)
From Coq Require Import String Ascii List NArith ZArith Bool Lia ZifyBool ZifyNat ZifyN.
From Verif Require Import Base BaseFacts Utf8 Utf8Facts Base64 SpecCodec Base64Facts Json JsonFacts Url UrlFacts Webtools SpecWeb.
Import ListNotations.
Open Scope N_scope.
Ltac Zify.zify_post_hook ::= Z.div_mod_to_equations.

(** ** FullDict *)
Lemma full_no_none d k : lookup k (full d) <> Some PNone.
Proof.
  intros H. apply lookup_In in H. apply filter_In in H as [_ H]. discriminate.
Qed.
Lemma full_In k v d : In (k, v) (full d) <-> In (k, v) d /\ v <> PNone.
Proof.
  unfold full. rewrite filter_In. simpl. destruct v; simpl; split; intros [H1 H2]; split; auto; congruence.
Qed.
Lemma lookup_full k d : NoDup (keys d) ->
  lookup k (full d) = match lookup k d with Some PNone => None | o => o end.
Proof.
  intros H. unfold full. rewrite lookup_filter by auto. destruct (lookup k d) as [v|]; auto. destruct v; auto.
Qed.
Lemma dget_full k d : NoDup (keys d) -> dget k (full d) = dget k d.
Proof.
  intros H. unfold dget. rewrite lookup_full by auto. destruct (lookup k d) as [[]|]; auto.
Qed.
Lemma full_NoDup d : NoDup (keys d) -> NoDup (keys (full d)).
Proof. apply keys_filter_NoDup. Qed.
Lemma full_id d : Forall (fun kv => snd kv <> PNone) d -> full d = d.
Proof.
  induction 1 as [|[k v] d Hv Hd IH]; simpl; auto. cbn [snd] in Hv. destruct v; simpl; try congruence.
  all: unfold full in IH; rewrite IH; auto.
Qed.
Lemma full_all d : Forall (fun kv => snd kv <> PNone) (full d).
Proof. apply Forall_forall. intros [k v] H. apply full_In in H. tauto. Qed.
Lemma full_full d : full (full d) = full d.
Proof. apply full_id, full_all. Qed.
Lemma full_setitem_all k v d : Forall (fun kv => snd kv <> PNone) d -> Forall (fun kv => snd kv <> PNone) (full_setitem k v d).
Proof.
  intros H. unfold full_setitem. destruct (is_none v) eqn:E; auto.
  assert (Hv : v <> PNone) by (destruct v; discriminate).
  clear E. induction H as [|[k' v'] d Hx Hd IH]; simpl; [constructor; auto|].
  destruct (eqs k k'); constructor; auto.
Qed.
Lemma lookup_full_setitem k v d k' :
  lookup k' (full_setitem k v d) = if is_none v then lookup k' d else if eqs k' k then Some v else lookup k' d.
Proof. unfold full_setitem. destruct (is_none v); auto. apply lookup_dset. Qed.

(** ** Integers *)
Lemma be_bytes_ok len n : bytes_ok (be_bytes len n).
Proof.
  revert n; induction len as [|len IH]; simpl; intros n; [constructor|].
  apply Forall_app; split; [apply IH|]. repeat constructor. lia.
Qed.
Lemma be_bytes_length len n : length (be_bytes len n) = len.
Proof. revert n; induction len as [|len IH]; simpl; intros n; auto. rewrite app_length, IH. simpl. lia. Qed.
Lemma be_value_snoc l b : be_value (l ++ [b]) = be_value l * 256 + b.
Proof. unfold be_value. rewrite fold_left_app. reflexivity. Qed.
Lemma be_value_bytes len n : n < 256 ^ N.of_nat len -> be_value (be_bytes len n) = n.
Proof.
  revert n; induction len as [|len IH]; intros n H.
  - simpl in H. assert (n = 0) by lia. subst. reflexivity.
  - simpl. rewrite be_value_snoc, IH; [lia|].
    replace (N.of_nat (S len)) with (N.succ (N.of_nat len)) in H by lia.
    rewrite N.pow_succ_r' in H. lia.
Qed.
Lemma byte_len_bound n : n < 256 ^ N.of_nat (byte_len n).
Proof.
  unfold byte_len. rewrite N2Nat.id.
  change 256 with (2 ^ 8). rewrite <- N.pow_mul_r.
  eapply N.lt_le_trans; [apply N.size_gt|].
  apply N.pow_le_mono_r; lia.
Qed.
Lemma byte_len_min n : n <> 0 -> 256 ^ N.of_nat (byte_len n - 1) <= n.
Proof.
  intros H. unfold byte_len.
  rewrite Nnat.Nat2N.inj_sub, N2Nat.id. change 256 with (2 ^ 8). rewrite <- N.pow_mul_r.
  transitivity (2 ^ N.log2 n).
  - apply N.pow_le_mono_r; [lia|]. rewrite N.size_log2 by auto. lia.
  - apply N.log2_spec; lia.
Qed.
Lemma byte_len_pos n : n <> 0 -> (0 < byte_len n)%nat.
Proof. intros H. unfold byte_len. rewrite N.size_log2 by auto. lia. Qed.
Lemma be_value_lt l : bytes_ok l -> be_value l < 256 ^ N.of_nat (length l).
Proof.
  induction l as [|b l IH] using rev_ind; intros H.
  - reflexivity.
  - apply Forall_app in H as [H1 H2]. inversion H2; subst. rewrite be_value_snoc, app_length. simpl length.
    replace (N.of_nat (length l + 1)) with (N.succ (N.of_nat (length l))) by lia.
    rewrite N.pow_succ_r'. specialize (IH H1). lia.
Qed.
(** The shortest big-endian representation is unique. *)
Lemma be_bytes_value l : bytes_ok l -> be_bytes (length l) (be_value l) = l.
Proof.
  induction l as [|b l IH] using rev_ind; intros H; auto.
  apply Forall_app in H as [H1 H2]. inversion H2; subst. rewrite app_length. simpl length.
  replace (length l + 1)%nat with (S (length l)) by lia. cbn [be_bytes].
  rewrite be_value_snoc. f_equal.
  - transitivity (be_bytes (length l) (be_value l)); [f_equal; lia | auto].
  - f_equal. lia.
Qed.

Lemma int_of_hex_value b : b <> [] -> int_of_hex b = Ok (be_value b).
Proof. destruct b; [congruence|reflexivity]. Qed.
Lemma b64_to_int_roundtrip n : n <> 0 ->
  b64_to_int_bytes (base64url_encode (be_bytes (byte_len n) n)) = Ok n.
Proof.
  intros H. unfold b64_to_int_bytes. rewrite base64url_roundtrip by apply be_bytes_ok. simpl.
  rewrite int_of_hex_value.
  - rewrite be_value_bytes; auto. apply byte_len_bound.
  - intros E. apply (f_equal (@length N)) in E. rewrite be_bytes_length in E. pose proof (byte_len_pos n H). simpl in E; lia.
Qed.

(** ** to_string *)
Lemma to_string_to_bytes s b : to_bytes s = Ok b -> to_string b = s.
Proof. intros H. unfold to_string. rewrite (utf8_decode_encode _ _ H). auto. Qed.
Lemma url_chars_ascii s : Forall (fun c => url_char c = true) s -> Forall (fun c => c < 128) s.
Proof. apply Forall_impl. intros c; apply url_char_lt. Qed.
Lemma to_string_ascii s : Forall (fun c => c < 128) s -> to_string s = s.
Proof. intros H. unfold to_string. rewrite utf8_decode_ascii; auto. Qed.
Lemma to_string_fallback b : bytes_ok b -> utf8_decode b = None -> Forall (fun c => url_char c = true) (to_string b).
Proof. intros Hb H. unfold to_string. rewrite H. apply base64url_encode_url; auto. Qed.

(** [base64url_encode] text never opens a JSON object, array or string; a number or literal at best. *)
Lemma pval_dict_head n s d r : pval n s = Ok (PDict d, r) -> exists t, s = 123 :: t.
Proof.
  destruct n as [|n]; [discriminate|]. cbn [pval]. destruct s as [|x t]; [discriminate|].
  destruct (x =? 34).
  { destruct (scan_str t) as [[y z]|]; cbn [rbind]; congruence. }
  destruct (N.eqb_spec x 123) as [->|]; [eauto|].
  destruct (x =? 91).
  { destruct (skip_ws t) as [|c' r']; [discriminate|]. destruct (c' =? 93); [congruence|].
    destruct (elems _ _ _) as [[vs z]|]; cbn [rbind]; congruence. }
  repeat match goal with
  | |- context [strip_prefix ?p ?q] => destruct (strip_prefix p q); [congruence|]
  end.
  unfold scan_number.
  match goal with |- context [let '(_, _) := ?X in _] => destruct X as [neg s1] end.
  destruct (scan_int s1) as [[ds s2]|]; [|discriminate].
  destruct (scan_frac s2) as [f s3]. destruct (scan_exp s3) as [e s4].
  destruct f, e; congruence.
Qed.
Lemma skip_ws_In c s : In c (skip_ws s) -> In c s.
Proof. induction s as [|x u IH]; simpl; auto. destruct (is_ws x); auto. Qed.
Lemma loads_dict_head s d : loads s = Ok (PDict d) -> In 123 s.
Proof.
  unfold loads. destruct s as [|c s]; [discriminate|]. destruct (c =? 65279); [discriminate|].
  destruct (pval _ _) as [[v r]|] eqn:E; cbn [rbind]; [|discriminate].
  intros H. assert (v = PDict d) by (destruct (skip_ws r); congruence). subst.
  apply pval_dict_head in E as [t E]. apply skip_ws_In. rewrite E. left; auto.
Qed.

(** ** secret_token *)
Lemma token_alphabet_length : length token_alphabet = 64%nat.
Proof. reflexivity. Qed.
Lemma token_alphabet_NoDup : NoDup token_alphabet.
Proof.
  assert (H : forall l : list N, (fix nd l := match l with [] => true | x :: r => negb (inc x r) && nd r end) l = true -> NoDup l).
  { induction l as [|x l IH]; [constructor|]. intros H. apply andb_true_iff in H as [H1 H2].
    constructor; auto. apply negb_true_iff, inc_nIn in H1. auto. }
  apply H. vm_compute. reflexivity.
Qed.
Lemma token_alphabet_nth_inj i j : (i < 64)%nat -> (j < 64)%nat ->
  nth i token_alphabet 0 = nth j token_alphabet 0 -> i = j.
Proof.
  intros Hi Hj H. pose proof token_alphabet_NoDup as ND.
  rewrite NoDup_nth in ND. apply ND in H; rewrite ?token_alphabet_length; auto.
Qed.

(** ** Authorization headers *)
Lemma b64encode_ascii u l : bytes_ok l -> Forall (fun c => c < 128) (b64encode u l).
Proof.
  assert (K : forall v, v < 64 -> b64char u v < 128).
  { intros v Hv. apply N.ltb_lt. destruct u;
    [apply (forall_lt64 (fun v => b64char true v <? 128)) | apply (forall_lt64 (fun v => b64char false v <? 128))]; auto. }
  induction l as [|a|a b|a b c r IH] using block3_ind; intros H.
  - constructor.
  - inversion H; subst. cbn [b64encode]. repeat constructor; try (apply K; lia).
  - inversion H; subst. inversion H3; subst. cbn [b64encode]. repeat constructor; try (apply K; lia).
  - inversion H; subst. inversion H3; subst. inversion H5; subst.
    cbn [b64encode]. repeat constructor; try (apply K; lia). auto.
Qed.
Lemma b64char_nospace u v : v < 64 -> py_space (b64char u v) = false.
Proof.
  intros Hv. apply negb_true_iff. destruct u;
  [apply (forall_lt64 (fun v => negb (py_space (b64char true v)))) | apply (forall_lt64 (fun v => negb (py_space (b64char false v))))]; auto.
Qed.
Lemma b64encode_head u l : bytes_ok l -> l <> [] -> exists c t, b64encode u l = c :: t /\ py_space c = false.
Proof.
  destruct l as [|a [|b [|c r]]]; intros H Hne; [congruence|..]; inversion H; subst; cbn [b64encode];
    do 2 eexists; (split; [reflexivity|apply b64char_nospace; lia]).
Qed.

Definition no_space (s : str) : Prop := Forall (fun c => py_space c = false) s.
Lemma span_word_app w r : no_space w -> match r with [] => True | c :: _ => py_space c = true end ->
  span_word (w ++ r) = (w, r).
Proof.
  induction 1 as [|c w Hc Hw IH]; intros Hr; simpl.
  - destruct r as [|c r]; simpl; auto. rewrite Hr; auto.
  - rewrite Hc, IH; auto.
Qed.
(** "scheme token": one space, a token that does not start with whitespace. *)
Lemma split_none1_two m c t : no_space m -> m <> [] -> py_space c = false ->
  split_none1 (m ++ 32 :: c :: t) = [m; c :: t].
Proof.
  intros Hm Hne Hc. unfold split_none1. destruct m as [|x m]; [congruence|].
  inversion Hm as [|? ? Hx Hm']; subst. cbn [app lstrip]. rewrite Hx.
  change (x :: m ++ 32 :: c :: t) with ((x :: m) ++ 32 :: c :: t).
  rewrite span_word_app; [|auto|reflexivity].
  cbn [lstrip]. change (py_space 32) with true. cbv iota. rewrite Hc. auto.
Qed.
Lemma lower_no_space m w : lower m = w -> no_space w -> no_space m.
Proof.
  intros <- H. unfold no_space, lower in *. rewrite Forall_map in H. eapply Forall_impl; [|exact H].
  cbv beta. intros c. unfold lower1. destruct ((65 <=? c) && (c <? 91)) eqn:E; auto.
  intros _. unfold py_space. lia.
Qed.
Lemma lower_nonempty m w : lower m = w -> w <> [] -> m <> [].
Proof. intros <- H ->. apply H; auto. Qed.

Lemma auth_text_lit s : inc 32 s = true -> auth_text [(lit "authorization", PStr s)] = Some s.
Proof.
  intros H. unfold auth_text, auth_header, dget. cbn [lookup]. rewrite eqs_refl.
  destruct s as [|c s]; [discriminate|]. cbn [truthy]. rewrite H; auto.
Qed.

Lemma basic_roundtrip m i s b :
  lower m = lit "basic" -> ~ In 58 i -> utf8_encode (i ++ 58 :: s) = Ok b ->
  get_basic_authorization [(lit "authorization", PStr (m ++ 32 :: b64encode false b))] = Ok (Some (i, s)).
Proof.
  intros Hm Hi Hb. unfold get_basic_authorization.
  rewrite auth_text_lit.
  2:{ apply inc_In. apply in_or_app. right; left; auto. }
  destruct (utf8_encode_ok _ _ Hb) as [_ Hok].
  assert (Hne : b <> []). { intros ->. apply utf8_decode_encode in Hb. destruct i; discriminate. }
  destruct (b64encode_head false b Hok Hne) as (c & t & E & Hc).
  unfold split_auth. rewrite E.
  rewrite split_none1_two; auto.
  2:{ eapply lower_no_space; eauto. repeat constructor. }
  2:{ eapply lower_nonempty; eauto. discriminate. }
  cbn [rbind]. rewrite Hm, eqs_refl. cbn [negb].
  unfold b64decode_str. rewrite <- E.
  replace (forallb (fun c => c <? 128) (b64encode false b)) with true.
  2:{ symmetry. apply forallb_forall. intros x Hx. pose proof (b64encode_ascii false b Hok) as K.
      rewrite Forall_forall in K. apply K in Hx. lia. }
  rewrite b64_roundtrip by auto. unfold to_string. rewrite (utf8_decode_encode _ _ Hb).
  rewrite split1_app by auto. auto.
Qed.

Lemma basic_sound h i s :
  get_basic_authorization h = Ok (Some (i, s)) ->
  exists auth m t b, auth_text h = Some auth /\ split_none1 auth = [m; t] /\ lower m = lit "basic" /\
    b64decode_str t = Ok b /\ utf8_encode (i ++ 58 :: s) = Ok b /\ ~ In 58 i.
Proof.
  unfold get_basic_authorization. destruct (auth_text h) as [auth|]; [|discriminate].
  unfold split_auth. destruct (split_none1 auth) as [|m [|t [|? ?]]] eqn:Es; try discriminate.
  cbn [rbind]. destruct (eqs_spec (lower m) (lit "basic")) as [Hm|]; [|discriminate]. cbn [negb].
  destruct (b64decode_str t) as [b|e] eqn:Eb; [|destruct e; discriminate].
  destruct (split1 58 (to_string b)) as [[i' s']|] eqn:E1; [|discriminate].
  intros H; inversion H; subst. apply split1_some in E1 as [E1 Hn].
  exists auth, m, t, b. repeat split; auto.
  assert (Hok : bytes_ok b). { unfold b64decode_str in Eb. destruct (forallb _ t); [|discriminate]. eapply b64decode_bytes_ok; eauto. }
  destruct (utf8_decode b) as [u|] eqn:Eu.
  - unfold to_string in E1. rewrite Eu in E1. subst. apply utf8_encode_decode; auto.
  - exfalso. pose proof (to_string_fallback b Hok Eu) as K. rewrite E1 in K.
    apply Forall_app in K as [_ K]. inversion K; discriminate.
Qed.

Lemma bearer_roundtrip m c t : lower m = lit "bearer" -> py_space c = false ->
  get_bearer_authorization [(lit "authorization", PStr (m ++ 32 :: c :: t))] = Ok (Some (c :: t)).
Proof.
  intros Hm Hc. unfold get_bearer_authorization. rewrite auth_text_lit.
  2:{ apply inc_In. apply in_or_app. right; left; auto. }
  unfold split_auth. rewrite split_none1_two; auto.
  2:{ eapply lower_no_space; eauto. repeat constructor. }
  2:{ eapply lower_nonempty; eauto. discriminate. }
  cbn [rbind]. rewrite Hm, eqs_refl. auto.
Qed.

(** The exceptions that the two functions let escape. *)
Lemma split_auth_err s e : split_auth s = Err e -> e = ValueError.
Proof. unfold split_auth. destruct (split_none1 s) as [|? [|? [|? ?]]]; congruence. Qed.
Lemma basic_err h e : get_basic_authorization h = Err e -> e = ValueError.
Proof.
  unfold get_basic_authorization. destruct (auth_text h) as [auth|]; [|discriminate].
  destruct (split_auth auth) as [[m t]|e'] eqn:E; cbn [rbind].
  - destruct (negb _); [discriminate|]. unfold b64decode_str.
    destruct (forallb _ t).
    + destruct (b64decode t) as [b|e'] eqn:Eb.
      * destruct (split1 58 (to_string b)) as [[? ?]|]; discriminate.
      * apply a2b_err in Eb. subst. discriminate.
    + congruence.
  - apply split_auth_err in E. congruence.
Qed.

(** ** urlencode *)
Lemma str_items_map items : str_items (map (fun kv => (fst kv, PStr (snd kv))) items) = Ok items.
Proof. induction items as [|[k v] r IH]; simpl; auto. rewrite IH. auto. Qed.
Lemma full_str_params items : FullDict (str_params items) [] = str_params items.
Proof.
  unfold FullDict, dupdate. simpl. apply full_id. apply Forall_forall. intros kv H.
  apply in_map_iff in H as (x & <- & _). simpl. congruence.
Qed.
Lemma urlencode_query u items r :
  urlencode u (str_params items) = Ok r -> Forall (fun kv => snd kv <> []) items ->
  ~ In 63 u -> ~ In 35 u ->
  exists q, r = u ++ 63 :: q /\ url_query r = q /\ parse_qsl q = items.
Proof.
  unfold urlencode. destruct (has _ _); [discriminate|]. rewrite full_str_params. unfold str_params. rewrite str_items_map. cbn [rbind].
  destruct (urlencode_ items) as [q|] eqn:E; cbn [rbind]; [|discriminate]. intros H HF H1 H2. inversion H; subst.
  exists q. split; auto. split; [|eapply parse_qsl_urlencode; eauto].
  pose proof (urlencode_chars _ _ E) as Hc.
  assert (Hno : ~ In 35 (u ++ 63 :: q)).
  { rewrite in_app_iff. intros [?|[?|Hin]]; auto; [discriminate|].
    rewrite Forall_forall in Hc. apply Hc in Hin. vm_compute in Hin. discriminate. }
  unfold url_query, url_nofrag. apply split1_none in Hno. unfold str in *. rewrite Hno.
  rewrite split1_app by auto. auto.
Qed.

(** ** Statements of the properties C01-C14 *)
Lemma url_char_alphabet c : url_char c = true -> In c url_alphabet.
Proof.
  intros H. pose proof (url_char_lt _ H) as Hl.
  assert (K : implb (url_char c) (inc c url_alphabet) = true).
  { apply (forall_lt256 (fun c => implb (url_char c) (inc c url_alphabet))); [vm_compute; auto | lia]. }
  rewrite H in K. apply inc_In; auto.
Qed.
Lemma p_base64url b : bytes_ok b ->
  base64url_decode (base64url_encode b) = Ok b /\
  base64url_encode b = rfc4648_url b /\
  Forall (fun c => In c url_alphabet) (base64url_encode b) /\
  length (base64url_encode b) = ((8 * length b + 5) / 6)%nat.
Proof.
  intros H. repeat split.
  - apply base64url_roundtrip; auto.
  - apply base64url_encode_rfc; auto.
  - eapply Forall_impl; [|apply base64url_encode_url; auto]. intros; apply url_char_alphabet; auto.
  - rewrite base64url_encode_raw by auto. apply b64raw_length.
Qed.

Lemma url_ascii_encode s : Forall (fun c => url_char c = true) s -> ascii_encode s = Ok s.
Proof.
  intros H. unfold ascii_encode. replace (forallb (fun c => c <? 128) s) with true; auto.
  symmetry. apply forallb_forall. intros x Hx. rewrite Forall_forall in H. apply H, url_char_lt in Hx. lia.
Qed.
Lemma p_int_roundtrip z : (0 < z)%Z ->
  exists l b, int_to_b64 z = Ok b /\ b = rfc4648_url l /\ bytes_ok l /\ Z.of_N (be_value l) = z /\
    (forall l', bytes_ok l' -> Z.of_N (be_value l') = z -> (length l <= length l')%nat) /\
    b64_to_int_bytes b = Ok (Z.to_N z) /\ b64_to_int (PStr b) = Ok (Some (Z.to_N z)).
Proof.
  intros H. unfold int_to_b64. replace (z <? 0)%Z with false by lia.
  set (n := Z.to_N z). assert (Hn : n <> 0) by (subst n; lia).
  pose proof (b64_to_int_roundtrip n Hn) as R.
  exists (be_bytes (byte_len n) n). eexists. split; [reflexivity|].
  rewrite <- base64url_encode_rfc by apply be_bytes_ok.
  split; auto. split; [apply be_bytes_ok|].
  split; [rewrite be_value_bytes by apply byte_len_bound; subst n; lia|].
  split; [|split; auto].
  - intros l' Hl' Hv. rewrite be_bytes_length.
    pose proof (be_value_lt l' Hl') as Hlt. assert (be_value l' = n) by (subst n; lia). rewrite H0 in Hlt.
    pose proof (byte_len_min n Hn) as Hmin.
    destruct (Compare_dec.le_lt_dec (byte_len n) (length l')) as [|Hcontra]; auto. exfalso.
    assert (256 ^ N.of_nat (length l') <= 256 ^ N.of_nat (byte_len n - 1)).
    { apply N.pow_le_mono_r; lia. }
    lia.
  - unfold b64_to_int. rewrite url_ascii_encode by (apply base64url_encode_url, be_bytes_ok).
    cbn [rbind]. rewrite R. auto.
Qed.
Lemma p_int_negative z : (z < 0)%Z -> int_to_b64 z = Err ValueError.
Proof. intros H. unfold int_to_b64. replace (z <? 0)%Z with true by lia. auto. Qed.

Lemma lor_disjoint_add a b n : b < 2 ^ n -> N.lor (a * 2 ^ n) b = a * 2 ^ n + b.
Proof.
  intros H. rewrite N.add_nocarry_lxor, N.lxor_lor; auto.
  all: apply N.bits_inj; intros i; rewrite N.land_spec, N.bits_0.
  all: destruct (N.lt_ge_cases i n).
  1,3: rewrite N.mul_pow2_bits_low by auto; auto.
  all: assert (E : N.testbit b i = false);
    [ destruct (N.eq_dec b 0) as [->|]; [apply N.bits_0|]; apply N.bits_above_log2; apply N.log2_lt_pow2 in H; lia
    | rewrite E; apply andb_false_r ].
Qed.
Lemma take_bits_mod c lo n : take_bits c lo n = (c / 2 ^ lo) mod 2 ^ n.
Proof. unfold take_bits. rewrite N.land_ones, N.shiftr_div_pow2. auto. Qed.
Lemma enc1_rfc c : enc1 c = rfc3629 c.
Proof.
  unfold enc1, rfc3629, is_scalar. rewrite !take_bits_mod.
  replace (2 ^ 6) with 64 by reflexivity. replace (2 ^ 5) with 32 by reflexivity.
  replace (2 ^ 12) with 4096 by reflexivity. replace (2 ^ 4) with 16 by reflexivity.
  replace (2 ^ 18) with 262144 by reflexivity. replace (2 ^ 3) with 8 by reflexivity.
  replace (2 ^ 0) with 1 by reflexivity.
  destruct (c <=? 127) eqn:E1; [replace (c <? 128) with true by lia; auto|].
  replace (c <? 128) with false by lia.
  assert (L128 : forall x, x < 64 -> N.lor 128 x = 128 + x).
  { intros x Hx. apply (lor_disjoint_add 2 x 6). exact Hx. }
  destruct (c <=? 2047) eqn:E2.
  { replace (c <? 2048) with true by lia.
    assert (N.lor 192 ((c / 64) mod 32) = 192 + c / 64) as ->.
    { rewrite (lor_disjoint_add 6 _ 5) by (simpl; lia). simpl. lia. }
    rewrite L128 by lia. repeat f_equal. lia. }
  replace (c <? 2048) with false by lia.
  destruct ((55296 <=? c) && (c <=? 57343)) eqn:E3.
  { replace (negb ((c <? 55296) || (57344 <=? c) && (c <? 1114112))) with true by lia. auto. }
  destruct (c <=? 65535) eqn:E4.
  { replace (negb ((c <? 55296) || (57344 <=? c) && (c <? 1114112))) with false by lia.
    replace (c <? 65536) with true by lia.
    assert (N.lor 224 ((c / 4096) mod 16) = 224 + c / 4096) as ->.
    { rewrite (lor_disjoint_add 14 _ 4) by (simpl; lia). simpl. lia. }
    rewrite !L128 by lia. repeat f_equal. lia. }
  destruct (c <=? 1114111) eqn:E5.
  { replace (negb ((c <? 55296) || (57344 <=? c) && (c <? 1114112))) with false by lia.
    replace (c <? 65536) with false by lia.
    assert (N.lor 240 ((c / 262144) mod 8) = 240 + c / 262144) as ->.
    { rewrite (lor_disjoint_add 30 _ 3) by (simpl; lia). simpl. lia. }
    rewrite !L128 by lia. repeat f_equal. lia. }
  replace (negb ((c <? 55296) || (57344 <=? c) && (c <? 1114112))) with true by lia. auto.
Qed.
Lemma utf8_encode_rfc s : utf8_encode s = match rfc3629_str s with Some b => Ok b | None => Err UnicodeEncodeError end.
Proof.
  unfold rfc3629_str. induction s as [|c s IH]; simpl; auto. rewrite <- enc1_rfc.
  destruct (enc1 c) as [b|]; auto. rewrite IH. destruct (concat_opt (map rfc3629 s)); auto.
Qed.
Lemma utf8_rfc s b : utf8_encode s = Ok b <-> rfc3629_str s = Some b.
Proof.
  rewrite utf8_encode_rfc. destruct (rfc3629_str s); split; intros H; inversion H; auto.
Qed.
Lemma p_to_string :
  (forall s, scalar_str s -> exists b, rfc3629_str s = Some b /\ to_bytes s = Ok b /\ to_string b = s) /\
  (forall b, bytes_ok b ->
     (exists s, rfc3629_str s = Some b /\ to_string b = s) \/
     ((forall s, rfc3629_str s <> Some b) /\ to_string b = rfc4648_url b /\
      Forall (fun c => In c url_alphabet) (to_string b))).
Proof.
  split.
  - intros s H. destruct (utf8_encode_scalar s H) as [b E]. exists b.
    split; [apply utf8_rfc; auto|]. split; auto. apply to_string_to_bytes; auto.
  - intros b Hb. unfold to_string. destruct (utf8_decode b) as [s|] eqn:E.
    + left. exists s. split; auto. apply utf8_encode_decode in E; auto. apply utf8_rfc; auto.
    + right. split; [|split].
      * intros s Hs. apply utf8_rfc in Hs. apply utf8_decode_encode in Hs. congruence.
      * apply base64url_encode_rfc; auto.
      * eapply Forall_impl; [|apply base64url_encode_url; auto]. intros; apply url_char_alphabet; auto.
Qed.

Lemma run_sets_all ops d : Forall (fun kv => snd kv <> PNone) d -> Forall (fun kv => snd kv <> PNone) (run_sets d ops).
Proof.
  unfold run_sets. revert d; induction ops as [|[k v] ops IH]; simpl; intros d H; auto.
  apply IH. apply full_setitem_all; auto.
Qed.
Lemma run_sets_lookup ops d k : lookup k (run_sets d ops) = last_non_none k ops (lookup k d).
Proof.
  unfold run_sets. revert d; induction ops as [|[k' v] ops IH]; simpl; intros d; auto.
  rewrite IH, lookup_full_setitem. destruct (is_none v); destruct (eqs k k'); auto.
Qed.
Lemma p_fulldict data kwargs ops : NoDup (keys data) -> NoDup (keys kwargs) ->
  let d := run_sets (FullDict data kwargs) ops in
  (forall k, lookup k d <> Some PNone) /\
  (forall k, lookup k d = last_non_none k ops
     (match (match lookup k kwargs with Some v => Some v | None => lookup k data end) with
      | Some PNone => None | o => o end)).
Proof.
  intros H1 H2 d. split.
  - intros k Hk. subst d. apply lookup_In in Hk.
    pose proof (run_sets_all ops (FullDict data kwargs) (full_all _)) as K.
    rewrite Forall_forall in K. apply K in Hk. apply Hk; auto.
  - intros k. subst d. rewrite run_sets_lookup. f_equal. unfold FullDict.
    rewrite lookup_full by (apply dupdate_NoDup; auto).
    rewrite lookup_dupdate, lookup_rev by auto. auto.
Qed.

Lemma p_query_roundtrip items :
  NoDup (keys items) -> Forall (fun kv => scalar_str (fst kv) /\ scalar_str (snd kv) /\ snd kv <> []) items ->
  exists q, urlencode_ items = Ok q /\ urldecode q = items.
Proof.
  intros Hn HF.
  destruct (urlencode_items_ok items) as [l El].
  { eapply Forall_impl; [|exact HF]; cbv beta; tauto. }
  exists (join [38] l). assert (E : urlencode_ items = Ok (join [38] l)) by (unfold urlencode_; rewrite El; auto).
  split; auto. unfold urldecode. erewrite parse_qsl_urlencode; eauto.
  - apply dict_of_id; auto.
  - eapply Forall_impl; [|exact HF]; cbv beta; tauto.
Qed.

Lemma p_redirect_params u items :
  ~ In 63 u -> ~ In 35 u -> NoDup (keys items) -> ~ In (lit "url") (keys items) ->
  Forall (fun kv => scalar_str (fst kv) /\ scalar_str (snd kv) /\ snd kv <> []) items ->
  exists r rest, urlencode u (str_params items) = Ok r /\ r = u ++ 63 :: rest /\ urldecode (url_query r) = items.
Proof.
  intros H1 H2 Hn Hu HF.
  destruct (p_query_roundtrip items Hn HF) as (q & Eq & Hq).
  assert (E : urlencode u (str_params items) = Ok (u ++ 63 :: q)).
  { unfold urlencode. destruct (has (lit "url") (str_params items)) eqn:Eh.
    - exfalso. apply Hu. unfold has in Eh. destruct (lookup (lit "url") (str_params items)) eqn:El; [|discriminate].
      apply lookup_In in El. apply in_map_iff in El as ([k v] & E1 & E2). injection E1 as E1 _. unfold keys. rewrite <- E1. apply in_map_iff. exists (k, v). auto.
    - rewrite full_str_params. unfold str_params. rewrite str_items_map. cbn [rbind]. rewrite Eq. auto. }
  exists (u ++ 63 :: q), q. split; auto. split; auto.
  destruct (urlencode_query _ _ _ E) as (q' & E1 & E2 & E3); auto.
  { eapply Forall_impl; [|exact HF]; cbv beta; tauto. }
  apply app_inv_head in E1. injection E1 as E1. subst q'. unfold str in *. rewrite E2. auto.
Qed.

Lemma p_secret_token :
  (forall choices, choices <> [] -> Forall (fun i => (i < 64)%nat) choices ->
     exists t, secret_token choices = Ok t /\ length t = length choices /\ Forall (fun c => token_char c = true) t) /\
  (forall c1 c2 t, Forall (fun i => (i < 64)%nat) c1 -> Forall (fun i => (i < 64)%nat) c2 ->
     secret_token c1 = Ok t -> secret_token c2 = Ok t -> c1 = c2) /\
  (forall t, t <> [] -> Forall (fun c => token_char c = true) t ->
     exists choices, Forall (fun i => (i < 64)%nat) choices /\ secret_token choices = Ok t).
Proof.
  assert (A : forall i, (i < 64)%nat -> token_char (nth i token_alphabet 0) = true).
  { intros i Hi. assert (F : forallb token_char token_alphabet = true) by reflexivity.
    rewrite forallb_forall in F. apply F, nth_In. rewrite token_alphabet_length; auto. }
  split; [|split].
  - intros choices Hne HF. destruct choices as [|i r]; [congruence|]. eexists. split; [reflexivity|].
    split; [apply map_length|]. apply Forall_map. eapply Forall_impl; [|exact HF]. apply A.
  - intros c1 c2 t F1 F2 H1 H2.
    assert (E : map (fun i => nth i token_alphabet 0) c1 = map (fun i => nth i token_alphabet 0) c2).
    { destruct c1, c2; cbn [secret_token] in *; congruence. }
    clear H1 H2. revert c2 F2 E; induction F1 as [|i c1 Hi F1 IH]; intros c2 F2 E; destruct c2 as [|j c2]; try discriminate; auto.
    simpl in E. inversion E. inversion F2; subst. f_equal; [apply token_alphabet_nth_inj; auto | auto].
  - intros t Hne HF.
    assert (B : forall c, token_char c = true -> exists i, (i < 64)%nat /\ nth i token_alphabet 0 = c).
    { intros c Hc. assert (In c token_alphabet).
      { assert (c < 256) by (unfold token_char in Hc; lia).
        assert (K : implb (token_char c) (inc c token_alphabet) = true).
        { apply (forall_lt256 (fun c => implb (token_char c) (inc c token_alphabet))); [vm_compute; auto|auto]. }
        rewrite Hc in K. apply inc_In; auto. }
      destruct (In_nth _ _ 0 H) as (i & Hi & E). rewrite token_alphabet_length in Hi. eauto. }
    assert (C : exists choices, Forall (fun i => (i < 64)%nat) choices /\ map (fun i => nth i token_alphabet 0) choices = t).
    { clear Hne. induction HF as [|c t Hc HF (ch & F & E)]; [exists []; auto|].
      destruct (B c Hc) as (i & Hi & Ei). exists (i :: ch). split; [constructor; auto|]. cbn [map]. rewrite Ei, E. reflexivity. }
    destruct C as (ch & F & E). exists ch. split; auto. destruct ch; [simpl in E; congruence|]. cbn [secret_token]. f_equal. exact E.
Qed.

Lemma p_basic_roundtrip m i s :
  lower m = lit "basic" -> ~ In 58 i -> scalar_str i -> scalar_str s ->
  exists b, rfc3629_str (i ++ 58 :: s) = Some b /\
    get_basic_authorization [(lit "authorization", PStr (m ++ 32 :: b64encode false b))] = Ok (Some (i, s)).
Proof.
  intros Hm Hi Hsi Hss.
  assert (Hs : scalar_str (i ++ 58 :: s)). { apply Forall_app; split; auto. }
  destruct (utf8_encode_scalar _ Hs) as [b E]. exists b. split; [|apply basic_roundtrip; auto].
  apply utf8_rfc; auto.
Qed.
Lemma p_basic_sound h i s :
  get_basic_authorization h = Ok (Some (i, s)) ->
  exists auth m t b, auth_header h = PStr auth /\ split_none1 auth = [m; t] /\ lower m = lit "basic" /\
    b64decode t = Ok b /\ rfc3629_str (i ++ 58 :: s) = Some b /\ ~ In 58 i.
Proof.
  intros H. apply basic_sound in H as (auth & m & t & b & H1 & H2 & H3 & H4 & H5 & H6).
  exists auth, m, t, b. repeat split; auto.
  - unfold auth_text in H1. destruct (auth_header h); try discriminate. destruct s0 as [|c0 s0]; [discriminate|].
    destruct (inc 32 (c0 :: s0)); congruence.
  - unfold b64decode_str in H4. destruct (forallb _ t); [auto|discriminate].
  - apply utf8_rfc; auto.
Qed.

Lemma basic_raises_iff h e :
  get_basic_authorization h = Err e <->
  e = ValueError /\ exists auth, auth_text h = Some auth /\
    ((length (split_none1 auth) < 2)%nat \/
     exists m t c, split_none1 auth = [m; t] /\ lower m = lit "basic" /\ In c t /\ 128 <= c).
Proof.
  split.
  - intros H. split; [eapply basic_err; eauto|]. unfold get_basic_authorization in H.
    destruct (auth_text h) as [auth|]; [|discriminate]. exists auth. split; auto.
    unfold split_auth in H. destruct (split_none1 auth) as [|m [|t [|? ?]]] eqn:Es; cbn [rbind length] in *; try (left; lia).
    2:{ exfalso. unfold split_none1 in Es. destruct (lstrip auth) as [|c0 r0]; [discriminate|].
        destruct (span_word (c0 :: r0)) as [w r]. destruct (lstrip r); discriminate. }
    right. destruct (eqs_spec (lower m) (lit "basic")) as [Hm|]; [|discriminate]. cbn [negb] in H.
    unfold b64decode_str in H. destruct (forallb (fun c => c <? 128) t) eqn:Ef.
    + exfalso. destruct (b64decode t) as [b|e'] eqn:Eb.
      * destruct (split1 58 (to_string b)) as [[? ?]|]; discriminate.
      * apply a2b_err in Eb. subst. discriminate.
    + assert (Hc : exists c, In c t /\ 128 <= c).
      { clear - Ef. induction t as [|c t IH]; simpl in Ef; [discriminate|].
        destruct (c <? 128) eqn:E; [|exists c; simpl; split; auto; lia].
        destruct (IH Ef) as (c' & ? & ?). exists c'; simpl; auto. }
      destruct Hc as (c & Hin & Hc). exists m, t, c. auto.
  - intros (-> & auth & Ha & H). unfold get_basic_authorization. rewrite Ha. unfold split_auth.
    destruct H as [H|(m & t & c & Hs & Hm & Hin & Hc)].
    + destruct (split_none1 auth) as [|? [|? ?]]; simpl in H |- *; auto; lia.
    + rewrite Hs. cbn [rbind]. rewrite Hm, eqs_refl. cbn [negb]. unfold b64decode_str.
      replace (forallb (fun c => c <? 128) t) with false; auto.
      symmetry. apply not_true_iff_false. intros F. rewrite forallb_forall in F. apply F in Hin. lia.
Qed.
Lemma bearer_raises_iff h e :
  get_bearer_authorization h = Err e <->
  e = ValueError /\ exists auth, auth_text h = Some auth /\ (length (split_none1 auth) < 2)%nat.
Proof.
  unfold get_bearer_authorization, split_auth. destruct (auth_text h) as [auth|].
  - assert (HL : (length (split_none1 auth) <= 2)%nat).
    { unfold split_none1. destruct (lstrip auth) as [|c0 r0]; [simpl; lia|].
      destruct (span_word (c0 :: r0)) as [w r]. destruct (lstrip r); simpl; lia. }
    destruct (split_none1 auth) as [|m [|t [|? ?]]] eqn:E; cbn [rbind length] in *; try lia.
    + split; [intros H; inversion H; subst; split; auto; exists auth; rewrite E; simpl; auto | intros (-> & _); auto].
    + split; [intros H; inversion H; subst; split; auto; exists auth; rewrite E; simpl; auto | intros (-> & _); auto].
    + destruct (negb _); split; try discriminate; intros (-> & a & Ha & Hlen); inversion Ha; subst; rewrite E in Hlen; simpl in Hlen; lia.
  - split; [discriminate | intros (_ & a & Ha & _); discriminate].
Qed.

Lemma p_bearer_other h :
  (auth_text h = None -> get_bearer_authorization h = Ok None) /\
  (forall auth m t, auth_text h = Some auth -> split_none1 auth = [m; t] -> lower m <> lit "bearer" ->
     get_bearer_authorization h = Ok None).
Proof.
  unfold get_bearer_authorization, split_auth. split.
  - intros ->; auto.
  - intros auth m t -> -> Hm. cbn [rbind]. apply eqs_false in Hm. rewrite Hm. auto.
Qed.

Lemma p_location :
  (forall url l, location url = Ok l -> Forall (fun c => 33 <= c <= 126) l) /\
  (forall url, scalar_str url -> exists l, location url = Ok l) /\
  (forall url, Forall (fun c => rfc3986_char c = true) url -> location url = Ok url).
Proof.
  split; [|split].
  - apply location_chars.
  - intros url H. apply quote_plus_scalar; auto.
  - intros url H. apply location_id. eapply Forall_impl; [|exact H]. cbv beta. intros c Hc.
    assert (c < 256). { unfold rfc3986_char in Hc. rewrite !orb_true_iff in Hc.
      destruct Hc as [[[Hc|Hc]|Hc]|Hc]; [lia|lia|lia|].
      apply existsb_exists in Hc as (x & Hin & Hx). apply N.eqb_eq in Hx. subst x. simpl in Hin.
      repeat (destruct Hin as [Hin|Hin]; [subst; lia|]). destruct Hin. }
    assert (K : implb (rfc3986_char c) (always_safe c || inc c location_safe) = true).
    { apply (forall_lt256 (fun c => implb (rfc3986_char c) (always_safe c || inc c location_safe))); [vm_compute; auto|auto]. }
    rewrite Hc in K. exact K.
Qed.

Lemma p_half_hash hashlib token alg :
  (hashlib (lit "sha" ++ skipn 2 alg) = None -> create_half_hash hashlib token alg = Err AttributeError) /\
  (forall h b, hashlib (lit "sha" ++ skipn 2 alg) = Some h -> rfc3629_str token = Some b -> bytes_ok (h b) ->
     exists s, create_half_hash hashlib token alg = Ok s /\
       s = rfc4648_url (firstn (Nat.div (length (h b)) 2) (h b)) /\
       base64url_decode s = Ok (firstn (Nat.div (length (h b)) 2) (h b))).
Proof.
  unfold create_half_hash. split.
  - intros ->; auto.
  - intros h b -> Hb Hok. unfold to_bytes. apply utf8_rfc in Hb. rewrite Hb. cbn [rbind].
    assert (Hf : bytes_ok (firstn (Nat.div (length (h b)) 2) (h b))).
    { unfold bytes_ok in *. rewrite Forall_forall in *. intros x Hx. apply Hok.
      rewrite <- (firstn_skipn (Nat.div (length (h b)) 2) (h b)). apply in_or_app; auto. }
    eexists. split; [reflexivity|].
    rewrite to_string_ascii by (apply url_chars_ascii, base64url_encode_url; auto).
    split; [apply base64url_encode_rfc; auto | apply base64url_roundtrip; auto].
Qed.
Lemma p_int_emitted z b : z <> 0%Z -> int_to_b64 z = Ok b -> b64_to_int_bytes b = Ok (Z.to_N z) /\ (0 < z)%Z.
Proof.
  intros Hz H. assert (0 < z)%Z.
  { unfold int_to_b64 in H. destruct (z <? 0)%Z eqn:E; [discriminate | lia]. }
  split; auto. destruct (p_int_roundtrip z) as (l & b' & H1 & _ & _ & _ & _ & H2 & _); auto. congruence.
Qed.
Lemma p_json_bytes v b : json_wf v = true -> to_bytes (json_dumps v) = Ok b -> json_loads b = Ok v.
Proof.
  intros Hw Hb. unfold json_loads. rewrite (to_string_to_bytes _ _ Hb). apply loads_dumps; auto.
Qed.
