(** Keys, tokens and facts about [ref] for the examples and the witnesses of PropsJws and PropsJwt. *)
From Coq Require Import String Ascii List NArith ZArith Bool Lia.
From Verif Require Import Base BaseFacts Utf8 SpecCodec Base64 Base64Facts Json JsonFacts Webtools WebtoolsFacts Crypto RefCrypto Jwk SpecKey JwkFacts Jws SpecJws JwsFacts.
Import ListNotations.
Open Scope N_scope.

Ltac vm := repeat match goal with |- _ /\ _ => split; [vm_compute; reflexivity|] end; vm_compute; reflexivity.

(** The key and the token of tests/jose/test_jws.py, and variants. *)
Definition k_text : pyval := PStr (lit "qDM80igvja4Tg_tNsEuWDhl2bMM6_NgJEldFhIEuwqQ").
Definition oct_dict (more : pdict) : pdict := (lit "kty", PStr (lit "oct")) :: (lit "k", k_text) :: more.
Definition oct_key (more : pdict) : jwk :=
  {| jdata := FullDict (oct_dict more) [];
     jmat := match base64url_decode (lit "qDM80igvja4Tg_tNsEuWDhl2bMM6_NgJEldFhIEuwqQ") with Ok b => KOct b | Err _ => KOct [] end |}.
Definition hs_token : bytes := lit "eyJhbGciOiAiSFMyNTYifQ.U3VwZXIgaW1wb3J0YW50IG1lc3NhZ2Uu.hcKC9ON7r55CL1bekT5KlYN37Dwx_3yGNlhexf89-1Y".
Definition hs_header : header := {| hdict := [(lit "alg", PStr (lit "HS256"))]; halg := HS SHA256 |}.
Definition hs_jws : jws := {| jheader := hs_header; jpayload := lit "Super important message." |}.

(** An RSA key of 640 bits and tokens signed with it. *)
Definition rsa_n : N := 3537243803081334868537132581440566368795148392738252663803354319026947981036217946804299878414952119796224026132567370738575848312677686054210374508008448283771699456058813320951421325400069561.
Definition rsa_dict : pdict := [(lit "kty", PStr (lit "RSA")); (lit "n", num_str rsa_n); (lit "e", num_str 65537)].
Definition rsa_key : jwk := {| jdata := rsa_dict; jmat := KRSA rsa_n 65537 None |}.
Definition ps_message : bytes := lit "eyJhbGciOiAiUFMyNTYifQ.bXNn".
Definition ps_sig_digest : bytes := lit "bEE6q7_TMmFcCl9pZ1mX1WYwuw59N59AT00RVP_1vb91TjmDO0b-tnNhzal8tTD_z6eeOmqw_Zm4SQ29rCSFA-XG1fAl8WG6u__rJcIQziU".
Definition ps_sig_max : bytes := lit "dmtq8RMGwc4W97zqvKp6LFSEPnIZfuoourXN6_YWXY_iWkqo3yTbpmDZ987AXrHmi4cetj_-gycv5oCgm4xKSySm0iCPYuk1eIy5pPGYjgs".
Definition rs_message : bytes := lit "eyJhbGciOiAiUlMyNTYifQ.bXNn".
Definition rs_sig : bytes := lit "mUQFx9-VWLMBrw4xgsmMruVYjoFjpfEcGqLyW8DdjD6CtHQDgQc0pJIs7uwqerAY263i19K0eI_qAngSePAmEjrpf7H_ArVyHRw8q9K7aWs".

(** The base point of P-256 as a public key, whose private key is 1. *)
Definition ec_dict (more : pdict) : pdict :=
  (lit "kty", PStr (lit "EC")) :: (lit "crv", PStr (lit "P-256")) ::
  (lit "x", num_str (fst (base_point P256))) :: (lit "y", num_str (snd (base_point P256))) :: more.
Definition ec_key : jwk := {| jdata := ec_dict []; jmat := KEC P256 (fst (base_point P256)) (snd (base_point P256)) None |}.
Definition ec_private : jwk :=
  {| jdata := ec_dict [(lit "d", num_str 1)]; jmat := KEC P256 (fst (base_point P256)) (snd (base_point P256)) (Some 1) |}.


Lemma sha2_ok w K r0 r1 r2 r3 bs init msg : bytes_ok (sha2 w K r0 r1 r2 r3 bs init msg).
Proof.
  unfold sha2. apply Forall_forall. intros x Hx. apply in_flat_map in Hx as (y & _ & Hx).
  pose proof (be_bytes_ok (Nat.div bs 16) y) as H. unfold bytes_ok in H. rewrite Forall_forall in H. auto.
Qed.
Lemma firstn_ok n l : bytes_ok l -> bytes_ok (firstn n l).
Proof. unfold bytes_ok. rewrite !Forall_forall. intros H x Hx. apply H. rewrite <- (firstn_skipn n l), in_app_iff. auto. Qed.
Lemma sha_ok h m : bytes_ok (sha h m).
Proof. unfold sha. apply firstn_ok. destruct h; apply sha2_ok. Qed.
Lemma ref_oct s : backend_correct ref (KOct s).
Proof. intros h data. apply sha_ok. Qed.
Lemma ref_ec_eq h data : c_ec_sign ref [] P256 1 h data =
  (1 + be_value (sha h data) mod (curve_order P256 - 1), 1 + fst (base_point P256) mod (curve_order P256 - 1)).
Proof. cbv beta iota delta [ref c_ec_sign ec_sign ec_mul N.eqb Pos.eqb]. reflexivity. Qed.
Lemma order_256 : 2 < curve_order P256. Proof. vm_compute. auto. Qed.
Lemma ref_ec : backend_correct ref (jmat ec_private).
Proof.
  intros rand h data. change (c_ec_sign ref rand) with (c_ec_sign ref []). rewrite ref_ec_eq.
  change (c_ec_verify ref P256) with (ec_verify P256). pose proof order_256 as O. unfold ec_verify.
  eexists _, _. split; [reflexivity|]. 
  set (m := be_value (sha h data)). set (x := fst (base_point P256)). set (q := curve_order P256) in *.
  pose proof (N.mod_upper_bound m (q - 1)) as H1. pose proof (N.mod_upper_bound x (q - 1)) as H2.
  clearbody m x q.
  split; [split; lia|]. split; [split; lia|].
  cbn [fst snd]. rewrite !N.eqb_refl. auto.
Qed.

(** ** C28 *)
Lemma key_ops_not_per_operation :
  let v := [(lit "key_ops", PList [PStr (lit "verify")])] in let s := [(lit "key_ops", PList [PStr (lit "sign")])] in
  (forall C, JsonWebKey C (PDict (oct_dict v)) = Ok (oct_key v)) /\ (forall C, JsonWebKey C (PDict (oct_dict s)) = Ok (oct_key s)) /\
  serialize ref [] hs_jws (Some (oct_key v)) = Ok hs_token /\
  deserialize ref hs_token (Some (oct_key s)) (PStr (lit "HS256")) true = Ok hs_jws.
Proof. split; [|split]; [intros; vm_compute; reflexivity|intros; vm_compute; reflexivity|]. vm. Qed.

(** ** C32 *)
Definition small_rsa : jwk := {| jdata := [(lit "kty", PStr (lit "RSA")); (lit "n", num_str 3233); (lit "e", num_str 17)]; jmat := KRSA 3233 17 None |}.
Lemma jws_foreign C :
  constructible C (oct_key []) /\ constructible C small_rsa /\
  deserialize C (lit "a..") (Some (oct_key [])) (PStr (lit "HS256")) true = Err BinasciiError /\
  deserialize C (lit "YQ..") (Some (oct_key [])) (PStr (lit "HS256")) true = Err JSONDecodeError /\
  deserialize C (rfc4648_url (lit "{""alg"": []}") ++ lit "..") (Some (oct_key [])) (PStr (lit "HS256")) true = Err TypeError /\
  deserialize C (rfc4648_url (lit "{""alg"": ""PS256""}") ++ lit "..") (Some small_rsa) (PStr (lit "PS256")) true = Err ValueError.
Proof.
  split. { exists (oct_dict []). split; [repeat constructor; simpl; intuition discriminate|vm_compute; reflexivity]. }
  split. { exists (jdata small_rsa). split; [repeat constructor; simpl; intuition discriminate|vm_compute; reflexivity]. }
  vm.
Qed.

(** ** C76-C78 *)
Lemma ps_salt : exists sig,
  constructible ref rsa_key /\ base64url_decode ps_sig_digest = Ok sig /\
  c_rsa_verify ref rsa_n 65537 (PSS SaltDigest) SHA256 sig ps_message = true /\
  deserialize ref (ps_message ++ 46 :: ps_sig_digest) (Some rsa_key) (PStr (lit "PS256")) true = Err InvalidSignature /\
  rmap jpayload (deserialize ref (ps_message ++ 46 :: ps_sig_max) (Some rsa_key) (PStr (lit "PS256")) true) = Ok (lit "msg").
Proof.
  eexists. split. { exists rsa_dict. split; [repeat constructor; simpl; intuition discriminate|vm_compute; reflexivity]. } vm.
Qed.
(** R and S as octet strings of the size of the order, concatenated: RFC 7518 section 3.4. *)
Definition es_message : bytes := rfc4648_url (lit "{""alg"": ""ES256""}") ++ 46 :: rfc4648_url (lit "msg").
Definition es_rs : N * N := Eval vm_compute in c_ec_sign ref [] P256 1 SHA256 es_message.
Definition es_raw : bytes := be_bytes 32 (fst es_rs) ++ be_bytes 32 (snd es_rs).
Lemma es_format :
  constructible ref ec_key /\
  c_ec_verify ref P256 (fst (base_point P256)) (snd (base_point P256)) SHA256 es_rs es_message = true /\
  deserialize ref (es_message ++ 46 :: rfc4648_url es_raw) (Some ec_key) (PStr (lit "ES256")) true = Err InvalidSignature /\
  rmap jpayload (deserialize ref (es_message ++ 46 :: rfc4648_url (der_sig es_rs)) (Some ec_key) (PStr (lit "ES256")) true) = Ok (lit "msg").
Proof.
  split. { exists (ec_dict []). split; [repeat constructor; simpl; intuition discriminate|vm_compute; reflexivity]. } vm.
Qed.
Lemma es_der_only C token k algv j name : constructible C k -> deserialize C token (Some k) algv true = Ok j ->
  lookup (lit "alg") (hdict (jheader j)) = Some (PStr name) -> In name (map fst es_names) ->
  exists hs ps ss r s, segments token hs ps ss /\ base64url_decode ss = Ok (der_sig (r, s)) /\ hd_error (der_sig (r, s)) = Some 48.
Proof.
  intros Hk H Hl Hn. apply p_jws_iff in H; auto.
  destruct H as (hs & ps & ss & hb & s & d & nm & H1 & H2 & H3 & H4 & H5 & H6 & H7 & H8 & H9 & H10 & P & S).
  assert (E : nm = name).
  { rewrite H7, without_none_full, lookup_full, H6 in Hl by (apply loads_dict in H4; tauto). congruence. }
  rewrite E in S. destruct S as [->|(sig & Eb & A)]; [cbn in Hn; intuition discriminate|].
  inversion A as [? ? ? ? I|? ? ? ? ? ? ? I|? ? ? ? ? ? ? I|? ? ? ? ? ? r t ? I]; subst.
  - exfalso. apply (in_map fst) in I. revert Hn I. clear. cbn. intros [<-|[<-|[<-|[]]]] [I|[I|[I|[]]]]; discriminate.
  - exfalso. apply (in_map fst) in I. revert Hn I. clear. cbn. intros [<-|[<-|[<-|[]]]] [I|[I|[I|[]]]]; discriminate.
  - exfalso. apply (in_map fst) in I. revert Hn I. clear. cbn. intros [<-|[<-|[<-|[]]]] [I|[I|[I|[]]]]; discriminate.
  - exists hs, ps, ss, r, t. auto.
Qed.
Lemma short_secrets C s : bytes_ok s -> exists k,
  JsonWebKey C (PDict [(lit "kty", PStr (lit "oct")); (lit "k", PStr (rfc4648_url s))]) = Ok k /\ jmat k = KOct s /\
  forall rand payload, exists token, serialize C rand {| jheader := hs_header; jpayload := payload |} (Some k) = Ok token.
Proof.
  intros Hs. set (d := [(lit "kty", PStr (lit "oct")); (lit "k", PStr (rfc4648_url s))]).
  destruct (p_construct C d eq_refl) as [Ho _]. destruct (Ho s eq_refl eq_refl Hs) as (k & Ek & Em). exists k. split; auto. split; auto.
  intros rand payload. assert (Hn : NoDup (keys d)) by (repeat constructor; simpl; intuition discriminate).
  pose proof (fun a => p_members C d k a Hn Ek) as Hg. unfold serialize. cbn [jheader jpayload].
  assert (D : forall a, In a [lit "alg"; lit "use"; lit "key_ops"] -> dget a (jdata k) = PNone).
  { intros a Ha. rewrite Hg. destruct Ha as [<-|[<-|[<-|[]]]]; reflexivity. }
  unfold validate_key. rewrite !(D (lit "alg")), (D (lit "use")), (D (lit "key_ops")) by (simpl; tauto). cbn [truthy andb raise_if rbind].
  change (raise_if (truthy (dget (lit "kid") (hdict hs_header)) && negb (py_eq (dget (lit "kid") (jdata k)) (dget (lit "kid") (hdict hs_header)))) InvalidKey) with (@Ok unit tt).
  cbn [rbind]. match goal with |- context [to_bytes ?x] => let v := eval vm_compute in (to_bytes x) in change (to_bytes x) with v end.
  cbn [rbind]. unfold alg_sign. cbn [halg hs_header]. unfold alg_validate_key. rewrite (D (lit "alg")) by (simpl; tauto). rewrite Hg.
  change (truthy PNone && negb (py_eq PNone (PStr (alg_name (HS SHA256))))) with false.
  change (py_eq (dget (lit "kty") d) (PStr (alg_kty (HS SHA256)))) with true. cbn [negb alg_curve rbind]. rewrite Em. cbn [mat_sign alg_padding rbind]. eauto.
Qed.
