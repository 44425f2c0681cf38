(** The Authorization header: what the two extraction functions return and raise, in terms of SpecReaders.v. *)
From Coq Require Import String Ascii List NArith ZArith Bool Lia Arith.
From Coq Require Import ZifyBool ZifyNat ZifyN.
From Verif Require Import Base BaseFacts PyFacts Utf8 Utf8Facts Base64 Base64Facts Json JsonFacts Url UrlFacts Webtools WebtoolsFacts SpecCodec SpecReaders ReaderFacts ReadB64Facts FormFacts.
Import ListNotations.
Open Scope N_scope.
Ltac Zify.zify_post_hook ::= Z.div_mod_to_equations.
Local Notation W := (fun c : N => In c white).
Local Notation NW := (fun c : N => ~ In c white).

(** ** The text of the header *)
Lemma carries_spec h auth : (exists s, auth_header h = PStr s /\ s <> [] /\ auth = s) <-> carries h auth.
Proof.
  unfold carries, auth_header, dget. change (chars "authorization") with (lit "authorization"). change (chars "Authorization") with (lit "Authorization").
  destruct (lookup (lit "authorization") h) as [v|].
  - destruct (truthy v) eqn:Et.
    + split.
      * intros (s & -> & Hs & ->). auto.
      * intros (Hn & [E|[_ Hf]]); [inversion E; eauto|]. specialize (Hf v eq_refl). apply false_spec in Hf. congruence.
    + apply false_spec in Et. split.
      * intros (s & E & Hs & ->). split; auto. right. split; [|intros v' Hv'; inversion Hv'; subst; auto].
        destruct (lookup (lit "Authorization") h); [congruence|discriminate].
      * intros (Hn & [E|[E _]]).
        -- inversion E; subst. inversion Et; subst. congruence.
        -- rewrite E. eauto.
  - cbn [truthy]. split.
    + intros (s & E & Hs & ->). split; auto. right. split; [|discriminate]. destruct (lookup (lit "Authorization") h); [congruence|discriminate].
    + intros (Hn & [E|[E _]]); [discriminate|]. rewrite E. eauto.
Qed.
Lemma carries_at h c s : auth_header h = PStr (c :: s) -> carries h (c :: s).
Proof. intros H. apply carries_spec. exists (c :: s). split; [exact H|]. split; [discriminate|reflexivity]. Qed.
Lemma auth_text_spec h auth : auth_text h = Some auth <-> carries h auth /\ In 32 auth.
Proof.
  rewrite <- carries_spec. unfold auth_text. split.
  - intros H. destruct (auth_header h) as [| | | |s| |]; try discriminate. destruct s as [|c s]; [discriminate|].
    destruct (inc 32 (c :: s)) eqn:E; inversion H; subst. apply inc_In in E. split; auto. eexists. split; [reflexivity|]. split; auto. discriminate.
  - intros [(s & -> & Hs & ->) Hi]. destruct s as [|c s]; [congruence|]. apply inc_In in Hi. rewrite Hi. reflexivity.
Qed.

(** ** The split *)
Lemma lstrip_app b s : Forall W b -> lstrip (b ++ s) = lstrip s.
Proof. induction 1 as [|c b Hc H IH]; auto. cbn [app lstrip]. apply white_spec in Hc. rewrite Hc. exact IH. Qed.
Lemma lstrip_inv s : exists b, s = b ++ lstrip s /\ Forall W b /\ match lstrip s with [] => True | c :: _ => ~ In c white end.
Proof.
  induction s as [|c s (b & E & H & Hh)]; cbn [lstrip]; [exists []; auto|]. destruct (py_space c) eqn:Ec.
  - exists (c :: b). split; [cbn [app]; congruence|]. split; auto. constructor; auto. apply white_spec. exact Ec.
  - exists []. split; auto. split; auto. intros K. apply white_spec in K. congruence.
Qed.
Lemma span_inv' s w r : span_word s = (w, r) -> s = w ++ r /\ Forall NW w /\ match r with [] => True | c :: _ => In c white end.
Proof.
  revert w r. induction s as [|c s IH]; intros w r H; cbn [span_word] in H; [inversion H; auto|].
  destruct (py_space c) eqn:Ec; [inversion H; subst; split; auto; split; auto; apply white_spec; exact Ec|].
  destruct (span_word s) as [a b]. inversion H; subst. destruct (IH _ _ eq_refl) as (-> & Ha & Hb). split; auto. split; auto.
  constructor; auto. intros K. apply white_spec in K. congruence.
Qed.
Lemma no_space_spec m : Forall NW m -> no_space m.
Proof. apply Forall_impl. intros c. apply not_white. Qed.
Lemma split_two auth m t : split_none1 auth = [m; t] <-> scheme_and_token auth m t.
Proof.
  unfold split_none1. split.
  - intros H. destruct (lstrip_inv auth) as (b & Eb & Hb & Hh). destruct (lstrip auth) as [|c s]; [discriminate|].
    destruct (span_word (c :: s)) as [w r] eqn:Es. destruct (lstrip_inv r) as (g & Eg & Hg & Hh2). destruct (lstrip r) as [|d t']; [discriminate|].
    inversion H; subst w t. apply span_inv' in Es as (Ew & Hw & Hr). rewrite Eb, Ew.
    assert (Hm : m <> []). { intros ->. cbn [app] in Ew. rewrite <- Ew in Hr. contradiction. }
    destruct g as [|x g]; cbn [app] in Eg; rewrite Eg in Hr |- *; [contradiction|]. inversion Hg; subst. constructor; auto.
  - intros [b m' x g c t' Hb Hm Hn Hx Hg Hc]. rewrite lstrip_app by exact Hb. apply not_white in Hc. apply no_space_spec in Hn. apply white_spec in Hx.
    destruct m' as [|a m']; [congruence|]. inversion Hn as [|? ? Ha Hn']; subst. cbn [app lstrip]. rewrite Ha.
    change (a :: m' ++ x :: g ++ c :: t') with ((a :: m') ++ x :: g ++ c :: t'). rewrite span_word_app; auto.
    cbn [lstrip]. rewrite Hx, lstrip_app by exact Hg. cbn [lstrip]. rewrite Hc. reflexivity.
Qed.
Lemma split_less auth : (length (split_none1 auth) < 2)%nat <-> ~ exists m t, scheme_and_token auth m t.
Proof.
  split.
  - intros H (m & t & K). apply split_two in K. rewrite K in H. cbn [length] in H. lia.
  - intros H. unfold split_none1 in *. destruct (lstrip auth) as [|c s] eqn:El; [cbn; lia|]. destruct (span_word (c :: s)) as [w r] eqn:Es.
    destruct (lstrip r) as [|d t] eqn:Er; [cbn; lia|]. exfalso. apply H. exists w, (d :: t). apply split_two. unfold split_none1. rewrite El, Es, Er. reflexivity.
Qed.
Lemma letters_spec m w : Forall (fun y => 97 <= y <= 122) w -> (lower m = w <-> same_letters m w).
Proof.
  intros Hw. split.
  - intros <-. unfold lower in *. induction m as [|c m IH]; [constructor|]. cbn [map] in *. inversion Hw; subst. constructor; [|apply IH; auto].
    unfold lower1 in *. destruct ((65 <=? c) && (c <? 91)); [right; lia|left; reflexivity].
  - intros H. induction H as [|x y m w Hxy H IH]; auto. inversion Hw; subst. cbn [lower map]. unfold lower in IH. rewrite IH by auto. f_equal.
    unfold lower1. destruct Hxy as [->|[Hy <-]].
    + replace ((65 <=? y) && (y <? 91)) with false by lia. reflexivity.
    + replace ((65 <=? x) && (x <? 91)) with true by lia. reflexivity.
Qed.
Lemma basic_letters m : lower m = lit "basic" <-> same_letters m (chars "basic").
Proof. apply (letters_spec m (lit "basic")). repeat constructor; try discriminate. Qed.
Lemma bearer_letters m : lower m = lit "bearer" <-> same_letters m (chars "bearer").
Proof. apply (letters_spec m (lit "bearer")). repeat constructor; try discriminate. Qed.

(** ** The two functions *)
Lemma ascii_spec t : forallb (fun c => c <? 128) t = true <-> Forall (fun c => c < 128) t.
Proof. rewrite forallb_forall, Forall_forall. split; intros H x Hx; specialize (H x Hx); lia. Qed.
Lemma basic_iff h i s : get_basic_authorization h = Ok (Some (i, s)) <->
  exists auth m t b, carries h auth /\ In 32 auth /\ scheme_and_token auth m t /\ same_letters m (chars "basic") /\
    Forall (fun c => c < 128) t /\ base64_text std_values t b /\ rfc3629_str (i ++ 58 :: s) = Some b /\ ~ In 58 i.
Proof.
  split.
  - intros H. apply basic_sound in H as (auth & m & t & b & H1 & H2 & H3 & H4 & H5 & H6). apply auth_text_spec in H1 as [Hc Hi].
    apply split_two in H2. apply basic_letters in H3. unfold b64decode_str in H4. destruct (forallb (fun c => c <? 128) t) eqn:Ea; [|discriminate].
    apply ascii_spec in Ea. apply b64decode_iff in H4. apply utf8_rfc in H5. exists auth, m, t, b. tauto.
  - intros (auth & m & t & b & Hc & Hi & H2 & H3 & Ha & H4 & H5 & H6).
    assert (H1 : auth_text h = Some auth) by (apply auth_text_spec; auto). apply split_two in H2. apply basic_letters in H3. apply ascii_spec in Ha. apply b64decode_iff in H4. apply utf8_rfc in H5.
    unfold get_basic_authorization, split_auth, b64decode_str. rewrite H1, H2. cbn [rbind]. rewrite H3, eqs_refl, Ha, H4. cbn [negb].
    unfold to_string. rewrite (utf8_decode_encode _ _ H5), split1_app by exact H6. reflexivity.
Qed.
Lemma basic_reads h auth b0 m x g b i s : carries h auth -> auth = b0 ++ m ++ x :: g ++ rfc4648 b -> Forall W b0 -> In x white -> Forall W g -> In 32 auth ->
  same_letters m (chars "basic") -> rfc3629_str (i ++ 58 :: s) = Some b -> ~ In 58 i -> get_basic_authorization h = Ok (Some (i, s)).
Proof.
  intros Hc -> Hb0 Hx Hg Hi Hm Hb Hn. apply basic_iff. exists (b0 ++ m ++ x :: g ++ rfc4648 b), m, (rfc4648 b), b.
  assert (Hb' := Hb). apply utf8_rfc in Hb'. destruct (utf8_encode_ok _ _ Hb') as [_ Hok].
  assert (Hne : b <> []). { intros ->. apply utf8_decode_encode in Hb'. destruct i; discriminate. }
  rewrite <- (b64encode_rfc b Hok) in *. destruct (b64encode_head false b Hok Hne) as (c & t & E & Hcs).
  split; [exact Hc|]. split; [exact Hi|]. split; [|split; [exact Hm|split; [|split; [|auto]]]].
  - rewrite E. apply basic_letters in Hm. constructor; auto.
    + eapply lower_nonempty; eauto. discriminate.
    + assert (K : no_space m) by (eapply lower_no_space; eauto; repeat constructor). eapply Forall_impl; [|exact K]. cbv beta. intros y Hy Hw. apply white_spec in Hw. congruence.
    + intros Hw. apply white_spec in Hw. congruence.
  - pose proof (b64encode_ascii false b Hok) as K. eapply Forall_impl; [|exact K]. cbv beta. intros; lia.
  - apply b64decode_iff. apply b64_roundtrip. exact Hok.
Qed.
Lemma bearer_iff h t : get_bearer_authorization h = Ok (Some t) <->
  exists auth m, carries h auth /\ In 32 auth /\ scheme_and_token auth m t /\ same_letters m (chars "bearer").
Proof.
  unfold get_bearer_authorization, split_auth. split.
  - destruct (auth_text h) as [auth|] eqn:E; [|discriminate]. apply auth_text_spec in E as [Hc Hi].
    destruct (split_none1 auth) as [|m [|t' [|? ?]]] eqn:Es; try discriminate. apply split_two in Es. cbn [rbind].
    destruct (eqs_spec (lower m) (lit "bearer")) as [Hm|]; [|discriminate]. cbn [negb]. intros H. inversion H; subst.
    apply bearer_letters in Hm. exists auth, m. auto.
  - intros (auth & m & Hc & Hi & Hs & Hm). assert (E : auth_text h = Some auth) by (apply auth_text_spec; auto).
    rewrite E. apply split_two in Hs. rewrite Hs. apply bearer_letters in Hm. cbn [rbind]. rewrite Hm, eqs_refl. reflexivity.
Qed.
Lemma basic_raises h e : get_basic_authorization h = Err e <->
  e = ValueError /\ exists auth, carries h auth /\ In 32 auth /\
    ((~ exists m t, scheme_and_token auth m t) \/
     exists m t c, scheme_and_token auth m t /\ same_letters m (chars "basic") /\ In c t /\ 128 <= c).
Proof.
  rewrite basic_raises_iff. split; intros [-> (auth & Ha & H)]; (split; [reflexivity|]); exists auth.
  - apply auth_text_spec in Ha as [Hc Hi]. split; auto. split; auto. destruct H as [H|(m & t & c & Hs & Hm & Hin & Hc')]; [left; apply split_less; exact H|right].
    exists m, t, c. apply split_two in Hs. apply basic_letters in Hm. auto.
  - destruct H as [Hi H]. split; [apply auth_text_spec; auto|]. destruct H as [H|(m & t & c & Hs & Hm & Hin & Hc')]; [left; apply split_less; exact H|right].
    exists m, t, c. apply split_two in Hs. apply basic_letters in Hm. auto.
Qed.
Lemma bearer_raises h e : get_bearer_authorization h = Err e <->
  e = ValueError /\ exists auth, carries h auth /\ In 32 auth /\ ~ exists m t, scheme_and_token auth m t.
Proof.
  rewrite bearer_raises_iff. split; intros [-> (auth & Ha & H)]; (split; [reflexivity|]); exists auth.
  - apply auth_text_spec in Ha as [Hc Hi]. rewrite split_less in H. auto.
  - destruct H as [Hi H]. rewrite split_less. split; [apply auth_text_spec; auto|exact H].
Qed.
Lemma p_basic_reads m i s : same_letters m (chars "basic") -> ~ In 58 i -> scalar_str i -> scalar_str s ->
  exists b, rfc3629_str (i ++ 58 :: s) = Some b /\
    forall h x g, carries h (m ++ x :: g ++ rfc4648 b) -> Forall W (x :: g) -> In 32 (x :: g) -> get_basic_authorization h = Ok (Some (i, s)).
Proof.
  intros Hm Hi Hsi Hss. assert (Hs : scalar_str (i ++ 58 :: s)) by (apply Forall_app; split; auto).
  destruct (utf8_encode_scalar _ Hs) as [b E]. apply utf8_rfc in E. exists b. split; auto. intros h x g Hc Hw H32. inversion Hw; subst.
  apply (basic_reads h (m ++ x :: g ++ rfc4648 b) [] m x g b); auto. apply in_or_app. right. change (x :: g ++ rfc4648 b) with ((x :: g) ++ rfc4648 b). apply in_or_app. auto.
Qed.
Lemma p_bearer_none h :
  ((forall auth, carries h auth -> ~ In 32 auth) -> get_bearer_authorization h = Ok None) /\
  (forall auth m t, carries h auth -> scheme_and_token auth m t -> ~ same_letters m (chars "bearer") -> get_bearer_authorization h = Ok None).
Proof.
  split.
  - intros H. apply p_bearer_other. destruct (auth_text h) as [auth|] eqn:E; auto. apply auth_text_spec in E as [Hc Hi]. exfalso. exact (H auth Hc Hi).
  - intros auth m t Hc Hs Hm. destruct (auth_text h) as [a|] eqn:E; [|apply p_bearer_other; exact E].
    assert (a = auth). { apply auth_text_spec in E as [E _]. apply carries_spec in E as (x & Ex & _ & ->). apply carries_spec in Hc as (y & Ey & _ & ->). congruence. }
    subst a. apply split_two in Hs. rewrite <- bearer_letters in Hm. eapply p_bearer_other; eauto.
Qed.

(** ** JSON in octets *)
Lemma json_octets_iff b v : bytes_ok b ->
  (json_loads b = Ok v <-> (exists s, rfc3629_str s = Some b /\ json_text true s v) \/
                           ((forall s, rfc3629_str s <> Some b) /\ json_text true (rfc4648_url b) v)).
Proof.
  intros Hb. unfold json_loads, to_string. destruct (utf8_decode b) as [s|] eqn:E.
  - apply utf8_encode_decode in E. apply utf8_rfc in E. rewrite loads_iff. split; [eauto|].
    intros [(s' & E' & H)|[H _]]; [|destruct (H s E)]. apply utf8_rfc in E, E'. apply utf8_decode_encode in E, E'. congruence.
  - rewrite loads_iff, base64url_encode_rfc by auto. split; [|intros [(s & Es & _)|[_ H]]; [|exact H]].
    + right. split; [|auto]. intros s Es. apply utf8_rfc, utf8_decode_encode in Es. congruence.
    + apply utf8_rfc, utf8_decode_encode in Es. congruence.
Qed.
Lemma json_or_error s e : loads s = Err e <-> e = JSONDecodeError /\ ~ exists v, json_text true s v.
Proof.
  split.
  - intros H. split; [eapply loads_err; eauto|]. intros (v & Hv). apply loads_iff in Hv. congruence.
  - intros [-> H]. destruct (loads s) as [v|e] eqn:E; [destruct H; exists v; apply loads_iff, E|]. apply loads_err in E. congruence.
Qed.
Lemma base64_or_error t e : base64url_decode t = Err e <-> e = BinasciiError /\ ~ exists b, base64_text any_values (t ++ repeat 61 (Nat.modulo (length t) 4)) b.
Proof.
  split.
  - intros H. split; [eapply base64url_decode_err; eauto|]. intros (b & Hb). apply base64url_decode_iff in Hb. congruence.
  - intros [-> H]. destruct (base64url_decode t) as [b|e] eqn:E; [destruct H; exists b; apply base64url_decode_iff, E|]. apply base64url_decode_err in E. congruence.
Qed.
