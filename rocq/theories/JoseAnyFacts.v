From Coq Require Import String Ascii List NArith ZArith Bool Lia ZifyBool ZifyNat ZifyN.
From Verif Require Import Base BaseFacts Utf8 SpecCodec SpecPy SpecReaders SpecUrl Base64 Json JsonFacts Url UrlFacts Webtools WebAny SpecAny AnyFacts DecFacts WebtoolsFacts Crypto Jwk SpecKey Jws SpecJws JwsFacts Jwt SpecJwt JoseAny.
Import ListNotations.
Open Scope N_scope.

(** What [str] makes of a float: ASCII, with one full stop at most *)
Definition float_like (float_text : str -> str) : Prop := forall l, Forall (fun c => c < 128) (float_text l) /\ (dots (float_text l) <= 1)%nat.

Section Any.
Variable C : crypto.
Variable float_text : str -> str.

Lemma few_dots now1 now2 t key algv v o : dots t <> 2%nat -> jwt_decode C now1 now2 t key algv v o = Err InvalidJWSSerialization.
Proof.
  intros H. unfold jwt_decode, deserialize. destruct (split_on 46 t) as [|a [|b [|c [|d l]]]] eqn:E; auto.
  exfalso. apply H. apply split3_dots. eauto.
Qed.
Lemma dots_none t : ~ In 46 t -> dots t = 0%nat.
Proof. intros H. pose proof (split_on_length t) as L. rewrite (split_on_none _ _ H) in L. cbn [length] in L. lia. Qed.
Lemma dec_no_dot z : ~ In 46 (dec_Z z) /\ Forall (fun c => c < 128) (dec_Z z).
Proof.
  assert (Hd : forall n, ~ In 46 (dec_N n) /\ Forall (fun c => c < 128) (dec_N n)).
  { intros n. destruct (dec_N_spec n) as (H & _). split.
    - intros Hi. unfold digit_str in H. rewrite Forall_forall in H. apply H in Hi. discriminate.
    - eapply Forall_impl; [|exact H]. cbv beta. unfold is_digit. intros c Hc. lia. }
  destruct z as [|q|q]; cbn [dec_Z].
  - split; [intros [H|[]]; discriminate|repeat constructor].
  - apply Hd.
  - destruct (Hd (N.pos q)) as [H1 H2]. split; [intros [H|H]; [discriminate|auto]|constructor; [reflexivity|exact H2]].
Qed.
Lemma ascii_same t : Forall (fun c => c < 128) t -> rfc3629_str t = Some t.
Proof.
  unfold rfc3629_str. induction 1 as [|c t Hc Ht IH]; [reflexivity|]. cbn [map].
  assert (E : rfc3629 c = Some [c]) by (unfold rfc3629; destruct (N.leb_spec c 127); [reflexivity|lia]).
  rewrite E. cbn [concat_opt]. rewrite IH. reflexivity.
Qed.

Lemma number_bytes a : float_like float_text -> number a -> exists t, bytes_for float_text a (Ok (Some t)) /\ (dots t <= 1)%nat.
Proof.
  intros Hf H. inversion H as [v z W|l]; subst.
  - assert (E : exists t, shown v t /\ (dots t <= 1)%nat /\ rfc3629_str t = Some t).
    { inversion W; subst.
      - destruct (dec_no_dot z) as [D A]. exists (dec_Z z). split; [apply sh_int; apply (proj2 (dec_iff z _) eq_refl)|]. rewrite (dots_none _ D). split; [lia|apply ascii_same, A].
      - exists (lit "False"). split; [constructor|]. split; [vm_compute; auto|reflexivity].
      - exists (lit "True"). split; [constructor|]. split; [vm_compute; auto|reflexivity]. }
    destruct E as (t & S & D & R). exists t. split; auto. eapply by_text; eauto. constructor; auto.
  - destruct (Hf l) as [A D]. exists (float_text l). split; auto. eapply by_text; [apply tx_float|apply ascii_same, A].
Qed.

Variables now1 now2 : Z.
Variable key : option jwk.
Variable algv : pyval.
Variable validate : bool.
Variable options : pyval.

Theorem c162_same :
  (forall b, jwt_decode_any C float_text now1 now2 (ABytes b) key algv validate options = jwt_decode C now1 now2 b key algv validate options) /\
  (forall s b, rfc3629_str s = Some b ->
     jwt_decode_any C float_text now1 now2 (AVal (PStr s)) key algv validate options = jwt_decode C now1 now2 b key algv validate options).
Proof.
  split; [reflexivity|]. intros s b H. unfold jwt_decode_any.
  assert (B : bytes_for float_text (AVal (PStr s)) (Ok (Some b))) by (eapply by_text; eauto; repeat constructor).
  apply bytes_iff in B. rewrite B. reflexivity.
Qed.
Theorem c163_number token : float_like float_text -> number token \/ token = AVal PNone ->
  jwt_decode_any C float_text now1 now2 token key algv validate options = Err InvalidJWSSerialization.
Proof.
  intros Hf [H| ->]; [|reflexivity]. destruct (number_bytes _ Hf H) as (t & B & D). apply bytes_iff in B.
  unfold jwt_decode_any. rewrite B. cbn [rbind]. apply few_dots. lia.
Qed.
Theorem c162_accepted token t : float_like float_text ->
  jwt_decode_any C float_text now1 now2 token key algv validate options = Ok t ->
  exists b h p s, (token = ABytes b \/ exists text, token = AVal (PStr text) /\ rfc3629_str text = Some b) /\ segments b h p s.
Proof.
  intros Hf H. assert (E : exists b, (token = ABytes b \/ exists text, token = AVal (PStr text) /\ rfc3629_str text = Some b) /\ jwt_decode C now1 now2 b key algv validate options = Ok t).
  { destruct token as [b|v]; [exists b; auto|].
    destruct v as [|b|z|l|s|l|d].
    - discriminate.
    - rewrite c163_number in H; [discriminate|auto|]. left. destruct b; econstructor; constructor.
    - rewrite c163_number in H; [discriminate|auto|]. left. econstructor; constructor.
    - rewrite c163_number in H; [discriminate|auto|]. left. apply nu_float.
    - unfold jwt_decode_any, WebAny.to_bytes_any, any_text in H. destruct (utf8_encode s) as [b|e] eqn:E; [|discriminate].
      cbn [rbind] in H. exists b. split; auto. right. exists s. split; auto. apply utf8_rfc; auto.
    - discriminate.
    - discriminate. }
  destruct E as (b & B & E). exists b. destruct (Nat.eq_dec (dots b) 2) as [D|D]; [|rewrite few_dots in E by auto; discriminate].
  apply split3_dots in D. destruct D as (h & p & s & D). exists h, p, s. split; auto.
  apply split3; auto.
Qed.
Theorem c162_deserialized token j : deserialize_any C token key algv validate = Ok j ->
  exists b h p s, token = ABytes b /\ segments b h p s /\ deserialize C b key algv validate = Ok j.
Proof.
  destruct token as [b|[]]; cbn [deserialize_any]; intros H; try discriminate.
  pose proof H as H'. unfold deserialize in H'. destruct (split_on 46 b) as [|h [|p [|s [|? ?]]]] eqn:D; try discriminate.
  exists b, h, p, s. split; auto. split; auto. apply split3; auto.
Qed.
Theorem c163_type token : collection token ->
  jwt_decode_any C float_text now1 now2 token key algv validate options = Err TypeError /\
  deserialize_any C token key algv validate = Err InvalidJWSSerialization.
Proof. intros H. inversion H; subst; split; reflexivity. Qed.
Theorem c163_surrogate s : rfc3629_str s = None ->
  jwt_decode_any C float_text now1 now2 (AVal (PStr s)) key algv validate options = Err UnicodeEncodeError.
Proof.
  intros H. assert (B : bytes_for float_text (AVal (PStr s)) (Err UnicodeEncodeError)) by (eapply by_surrogate; eauto; repeat constructor).
  apply bytes_iff in B. unfold jwt_decode_any. rewrite B. reflexivity.
Qed.
Theorem c163_deserialize :
  (forall s, deserialize_any C (AVal (PStr s)) key algv validate = Err TypeError) /\
  (forall token, number token \/ collection token \/ token = AVal PNone -> deserialize_any C token key algv validate = Err InvalidJWSSerialization).
Proof.
  split; [reflexivity|]. intros token [H|[H| ->]]; [|inversion H; subst; reflexivity|reflexivity].
  inversion H as [v z W|]; subst; [|reflexivity]. inversion W; subst; reflexivity.
Qed.
End Any.

Theorem c164 C float_text rand d h payload k k' token algv :
  json_wf (PDict d) = true -> octets_arg payload -> constructible C k -> constructible C k' -> verifying_key k k' ->
  backend_correct C (jmat k) ->
  JsonWebSignatureHeader (PDict d) = Ok h ->
  serialize_any C float_text rand h payload (Some k) = Ok token ->
  (~ false_value algv -> algv = dget (lit "alg") d) ->
  exists b, bytes_for float_text payload (Ok (Some b)) /\
    deserialize_any C (ABytes token) (Some k') algv true = Ok {| jheader := h; jpayload := b |}.
Proof.
  intros Hw Ho Hk Hk' Hv B Hh Hs Ha.
  destruct (WebAny.to_bytes_any float_text payload) as [[b|]|e] eqn:E.
  - exists b. split; [apply bytes_iff, E|]. cbn [deserialize_any]. apply (p_jws_roundtrip C rand d h b k k' token algv); auto.
    + eapply to_bytes_octets; eauto.
    + unfold serialize_any, base64url_encode_any in Hs. rewrite E in Hs. exact Hs.
  - exfalso. unfold serialize_any, base64url_encode_any in Hs. rewrite E in Hs. cbn [rbind] in Hs.
    destruct (validate_key _ _); [|discriminate]. cbn [rbind] in Hs. destruct (to_bytes _); discriminate.
  - exfalso. unfold serialize_any, base64url_encode_any in Hs. rewrite E in Hs. cbn [rbind] in Hs.
    destruct (validate_key _ _); [|discriminate]. cbn [rbind] in Hs. destruct (to_bytes _); discriminate.
Qed.
Theorem c164_same C float_text rand h payload b key : bytes_for float_text payload (Ok (Some b)) ->
  serialize_any C float_text rand h payload key = serialize C rand {| jheader := h; jpayload := b |} key.
Proof. intros H. apply bytes_iff in H. unfold serialize_any, serialize, base64url_encode_any. rewrite H. reflexivity. Qed.
Theorem c163_refuted C float_text now1 now2 key algv validate options :
  (forall token, collection token -> jwt_decode_any C float_text now1 now2 token key algv validate options = Err TypeError) /\
  (forall s, rfc3629_str s = None ->
     jwt_decode_any C float_text now1 now2 (AVal (PStr s)) key algv validate options = Err UnicodeEncodeError) /\
  (forall s, deserialize_any C (AVal (PStr s)) key algv validate = Err TypeError).
Proof. split; [intros; apply c163_type; auto|split; [intros; apply c163_surrogate; auto|reflexivity]]. Qed.
Theorem c163_partial C float_text now1 now2 key algv validate options token : float_like float_text ->
  (number token \/ token = AVal PNone ->
     jwt_decode_any C float_text now1 now2 token key algv validate options = Err InvalidJWSSerialization) /\
  (number token \/ collection token \/ token = AVal PNone -> deserialize_any C token key algv validate = Err InvalidJWSSerialization).
Proof. intros Hf. split; [intros; apply c163_number; auto|intros; apply c163_deserialize; auto]. Qed.
