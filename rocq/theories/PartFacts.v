(** Lemmas for what remains true of some refuted properties: C19, C28, C75, C102. *)
From Coq Require Import String Ascii List NArith ZArith Bool Arith Lia.
From Verif Require Import Base BaseFacts SpecPy PyFacts SpecCodec SpecWeb SpecKey Utf8 Utf8Facts Base64 Base64Facts Json Url UrlFacts Webtools WebtoolsFacts Crypto Jwk JwkFacts Jws SpecJws JwsFacts Prog Http OAuth App SpecApp AppFacts SpecLife LifeFacts SpecPart SpecReaders ReadB64Facts.
Import ListNotations.
Open Scope N_scope.

(** ** C75 *)
Lemma curve_p_octets c : curve_p c < 256 ^ N.of_nat (coord_octets c).
Proof. destruct c; reflexivity. Qed.
Lemma octets_full n k : (0 < k)%nat -> n < 256 ^ N.of_nat k -> (byte_len n <= k)%nat /\ (byte_len n = k <-> 256 ^ N.of_nat (k - 1) <= n).
Proof.
  intros Hk Hn. split; [apply byte_len_le; auto|]. split.
  - intros <-. apply byte_len_min. intros ->. change (byte_len 0) with 0%nat in Hk. lia.
  - intros H. pose proof (byte_len_le _ _ Hn) as H1. pose proof (byte_len_bound n) as H2. destruct (Nat.eq_dec (byte_len n) k) as [|Hne]; [auto|exfalso].
    assert (H3 : (256 ^ N.of_nat (byte_len n) <= 256 ^ N.of_nat (k - 1))%N) by (apply N.pow_le_mono_r; lia). lia.
Qed.
Lemma num_octets n k : (0 < k)%nat -> n < 256 ^ N.of_nat k ->
  exists b, num_str n = PStr (rfc4648_url b) /\ bytes_ok b /\ be_value b = n /\ (length b <= k)%nat /\ (length b = k <-> 256 ^ N.of_nat (k - 1) <= n).
Proof.
  intros Hk Hn. exists (be_bytes (byte_len n) n). split; [rewrite num_str_val, base64url_encode_rfc by apply be_bytes_ok; auto|]. split; [apply be_bytes_ok|].
  split; [apply be_value_bytes, byte_len_bound|]. rewrite be_bytes_length. apply octets_full; auto.
Qed.
Lemma p_ec_octets C d k c x y o pub out name n : JsonWebKey C (PDict d) = Ok k -> jmat k = KEC c x y o -> jwk_dump k pub = Ok out ->
  In (name, n) [(lit "x", x); (lit "y", y)] \/ (pub = false /\ name = lit "d" /\ o = Some n) ->
  exists b, lookup name out = Some (PStr (rfc4648_url b)) /\ bytes_ok b /\ be_value b = n /\
    (length b <= coord_octets c)%nat /\ (length b = coord_octets c <-> 256 ^ N.of_nat (coord_octets c - 1) <= n).
Proof.
  intros Hk Hm Hd Hn. assert (Hc : (0 < coord_octets c)%nat) by (destruct c; cbn; lia).
  destruct (p_construct_only _ _ _ Hk) as (d' & kty & _ & _ & _ & [(_ & (s & H) & _)|[(_ & n0 & e0 & o0 & H & _)|(_ & c' & x' & y' & o' & H & (Hx & Hy & _) & _ & _ & _ & Hp)]]); try congruence.
  rewrite Hm in H. injection H as <- <- <- <-. pose proof (curve_p_octets c) as Hb.
  unfold jwk_dump in Hd. rewrite Hm in Hd. cbn [mat_dump] in Hd.
  assert (Hgo : forall data extra, Ok (dupdate data extra) = Ok out -> lookup name (rev extra) = Some (num_str n) -> n < 256 ^ N.of_nat (coord_octets c) ->
    exists b, lookup name out = Some (PStr (rfc4648_url b)) /\ bytes_ok b /\ be_value b = n /\ (length b <= coord_octets c)%nat /\ (length b = coord_octets c <-> 256 ^ N.of_nat (coord_octets c - 1) <= n)).
  { intros data extra He Hl Hlt. assert (Hout : out = dupdate data extra) by congruence. clear He. subst out. destruct (num_octets _ _ Hc Hlt) as (b & E & H1 & H2 & H3 & H4). exists b. split; [|auto]. rewrite lookup_dupdate, Hl, E. auto. }
  destruct Hn as [Hn|(-> & -> & ->)].
  - assert (Hlt : n < 256 ^ N.of_nat (coord_octets c)) by (destruct Hn as [[= <- <-]|[[= <- <-]|[]]]; lia).
    destruct pub; [|destruct o as [d0|]; [|discriminate]]; cbn [rbind] in Hd; (eapply Hgo; [exact Hd| |exact Hlt]);
      destruct Hn as [[= <- <-]|[[= <- <-]|[]]]; reflexivity.
  - cbn [rbind] in Hd. destruct (Hp _ eq_refl) as (_ & [_ Ho] & _). eapply Hgo; [exact Hd|reflexivity|]. assert (curve_order c < 256 ^ N.of_nat (coord_octets c)) by (destruct c; reflexivity). lia.
Qed.

(** ** C19 *)
Lemma p_export_inner C d k s pub t : JsonWebKey C (PDict d) = Ok k -> jmat k = KOct s -> bytes_ok t -> s = rfc4648_url t -> jwk_export C k pub = Ok (rfc4648 t).
Proof.
  intros Hk Hs Ht ->. unfold jwk_export. rewrite Hs. cbn [mat_export]. rewrite <- base64url_encode_rfc, base64url_roundtrip by auto. cbn [rbind]. f_equal. apply b64encode_rfc. auto.
Qed.

Lemma p_export_iff C k s pub b : jmat k = KOct s ->
  (jwk_export C k pub = Ok b <-> exists t, base64_text any_values (s ++ repeat 61 (Nat.modulo (length s) 4)) t /\ b = rfc4648 t).
Proof.
  intros Hs. unfold jwk_export. rewrite Hs. cbn [mat_export]. split.
  - intros H. destruct (base64url_decode s) as [t|] eqn:Ed; [|discriminate]. cbn [rbind] in H. exists t. split; [apply base64url_decode_iff; auto|].
    rewrite b64encode_rfc in H by (eapply base64url_decode_bytes_ok; eauto). congruence.
  - intros (t & Ht & ->). apply base64url_decode_iff in Ht. rewrite Ht. cbn [rbind]. f_equal. apply b64encode_rfc. eapply base64url_decode_bytes_ok; eauto.
Qed.

(** ** C28 *)
Lemma p_other_ops C k l x : constructible C k -> dget (lit "key_ops") (jdata k) = PList l -> In x l -> x <> PStr (lit "sign") -> x <> PStr (lit "verify") ->
  (forall token algv j, deserialize C token (Some k) algv true <> Ok j) /\
  (forall rand d h payload token, NoDup (keys d) -> JsonWebSignatureHeader (PDict d) = Ok h -> serialize C rand {| jheader := h; jpayload := payload |} (Some k) <> Ok token).
Proof.
  intros Hc Hl Hx N1 N2. destruct (p_permits _ _ Hc) as [Hd Hs].
  assert (Hno : forall h, ~ key_permits k h).
  { intros h (_ & _ & _ & Ho). rewrite Hl in Ho. destruct Ho as [(l' & [= <-] & Ho)|(d & [=] & _)]; [destruct l; [destruct Hx|intros F; inversion F]|]. destruct (Ho _ Hx); auto. }
  split; intros; intros H1; [eapply Hno, Hd; eauto|eapply Hno, Hs; eauto].
Qed.

(** ** C102 *)
Lemma p_login_home E p hs w tr l ck : aexec (application E p hs LoginPage w) tr (V (RRedirect l ck)) -> is_origin (wb_base w) ->
  ~ In 63 (wb_url w) \/ ck = None -> l = wb_base w ++ lit "/".
Proof.
  intros H Ho Hq. assert (Hh : forall l', location (home_url w) = Ok l' -> l' = wb_base w ++ lit "/").
  { intros l' Hl. assert (Hu : is_url (home_url w)). { destruct Ho as [Ho _]. unfold home_url, is_url in *. apply Forall_app. split; [auto|]. repeat constructor; vm_compute; intuition congruence. }
    rewrite (is_url_location _ Hu) in Hl. injection Hl as <-. reflexivity. }
  unfold application in H. apply aexec_abind in H as [(ou & t1 & t2 & -> & H1 & H2)|(e & [=] & _)].
  assert (Hred : forall u c t, aexec (redirect u c) t (V (RRedirect l ck)) -> c = ck /\ location u = Ok l).
  { intros u c t Hx. apply aexec_ARet in Hx as [_ Hx]. destruct (location u) as [l'|]; [|discriminate]. injection Hx as <- <-. auto. }
  destruct ou as [ou|]; [|apply aexec_ARet in H2 as [_ H2]; discriminate]. cbn [view] in H2. destruct (is_get w).
  { unfold login_get in H2. destruct ou; [apply Hred in H2 as [_ ?]; auto|apply aexec_ARet in H2 as [_ H2]; discriminate]. }
  destruct (is_post w); [|apply aexec_ARet in H2 as [_ H2]; discriminate].
  unfold login_post in H2. destruct ou; [apply Hred in H2 as [_ ?]; auto|].
  destruct (negb (form_ok (wb_form w))); [apply aexec_ARet in H2 as [_ H2]; discriminate|].
  apply aexec_abind in H2 as [(a & s1 & s2 & -> & _ & H2)|(e & [=] & _)]. destruct a as [a|]; [|apply aexec_ARet in H2 as [_ H2]; discriminate].
  destruct (negb _); [apply aexec_ARet in H2 as [_ H2]; discriminate|].
  apply aexec_abind in H2 as [(s & s3 & s4 & -> & _ & H2)|(e & [=] & _)]. apply aexec_abind in H2 as [(s' & s5 & s6 & -> & _ & H2)|(e & [=] & _)].
  cbv zeta in H2. apply Hred in H2 as [Hc H2]. destruct Hq as [Hq| ->]; [|discriminate].
  assert (Hn : query_param (wb_url w) (lit "next") = None).
  { unfold query_param, url_query. rewrite (proj2 (split1_none 63 (url_nofrag (wb_url w)))); [reflexivity|]. intros Hi. apply Hq. unfold url_nofrag in Hi.
    destruct (split1 35 (wb_url w)) as [[a0 b0]|] eqn:Es; [|auto]. apply split1_some in Es as [-> _]. apply in_app_iff. auto. }
  rewrite Hn in H2. auto.
Qed.
