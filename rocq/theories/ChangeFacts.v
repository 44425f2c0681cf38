(** Changed objects: lemmas for C165 to C168. *)
From Coq Require Import String Ascii List NArith ZArith Bool Lia.
From Verif Require Import Base BaseFacts Json SpecCodec Base64 Base64Facts Webtools WebtoolsFacts Crypto Jwk SpecKey JwkFacts Jws SpecJws JwsFacts SpecReaders ReadB64Facts ReadJwsFacts
  Jwt SpecJwt JwtFacts JwkSign SpecKeySign KeySignFacts Change SpecChange.
Import ListNotations.
Open Scope N_scope.
Notation rbind_ok := BaseFacts.rbind_ok.

(** ** C165 *)
Lemma padding_in a p : alg_padding a = Some p -> exists s, In (s, p) padding_names.
Proof. destruct a; try discriminate; intros [= <-]; eexists; [left|right; left]; reflexivity. Qed.
Lemma mat_signed C rand m data a sig : mat_sign C rand m data (alg_hash a) (alg_padding a) = Ok sig ->
  exists kw, signature_of C rand data m (alg_hash a) kw sig.
Proof.
  intros H. destruct m as [s|n e o|c x y o]; cbn [mat_sign] in H; destruct (alg_padding a) as [p|] eqn:P; try discriminate.
  - injection H as <-. eexists. constructor.
  - destruct o as [pk|]; [|discriminate]. destruct (padding_fits n p (alg_hash a)) eqn:F; [|discriminate].
    apply padding_in in P as (s & P). eexists. econstructor; eauto. apply fits_iff; [eapply named_padding; eauto|exact F].
  - destruct o as [d|]; [|discriminate]. injection H as <-. eexists. constructor.
Qed.
Lemma mat_verified C m data a sig u : mat_verify C m sig data (alg_hash a) (alg_padding a) = Ok u ->
  exists kw, verified C data m (alg_hash a) kw sig.
Proof.
  intros H. destruct u. destruct m as [s|n e o|c x y o]; destruct (alg_padding a) as [p|] eqn:P; try discriminate H.
  - cbn [mat_verify] in H. destruct (eqs _ sig) eqn:E; [|discriminate]. apply eqs_true in E. subst sig. eexists. constructor.
  - cbn [mat_verify] in H. destruct (padding_fits n p (alg_hash a)) eqn:F; [|discriminate]. cbn [negb] in H.
    destruct (c_rsa_verify _ _ _ _ _ _ _) eqn:V; [|discriminate]. apply padding_in in P as (s & P). eexists. econstructor; eauto. apply fits_iff; [eapply named_padding; eauto|exact F].
  - apply ec_verified in H. eauto.
Qed.
Lemma validate_key_same a k k' : alg_validate_key a (Some k) = Ok k' -> k' = k.
Proof.
  unfold alg_validate_key. cbv zeta. destruct (_ && _); [discriminate|]. destruct (negb _); [discriminate|]. destruct (alg_curve a); [destruct (negb _); [discriminate|]|]; congruence.
Qed.
Lemma c165_verifies C cs k token algv j : deserialize C token (Some (change_key cs k)) algv true = Ok j ->
  exists hs ps ss, segments token hs ps ss /\ url_octets ps (jpayload j) /\
    (lookup (lit "alg") (hdict (jheader j)) = Some (PStr (lit "none")) \/
     exists sig h kw, url_octets ss sig /\ verified C (hs ++ 46 :: ps) (jmat k) h kw sig).
Proof.
  unfold deserialize. intros H. match type of H with match ?x with _ => _ end = _ => destruct x as [|hs [|ps [|ss [|? ?]]]] eqn:E end; try discriminate. apply split3 in E.
  apply rbind_ok in H as (hb & Hb & H). apply rbind_ok in H as (hv & Hv & H). apply rbind_ok in H as (h & Hh & H). apply rbind_ok in H as (? & _ & H).
  apply rbind_ok in H as (? & Ha & H). apply rbind_ok in Ha as (? & _ & Ha). apply rbind_ok in H as (pl & Hp & H). injection H as <-.
  exists hs, ps, ss. split; [exact E|]. split; [apply url_octets_iff, Hp|]. cbn [jheader].
  destruct (halg h) eqn:G.
  1: { left. destruct hv as [| | | | | |d]; try discriminate. pose proof Hh as K. apply header_iff in K as (_ & -> & K). rewrite G in K.
       rewrite lookup_full by (apply json_loads_dict in Hv; [tauto|eapply base64url_decode_bytes_ok; eauto]). rewrite K. reflexivity. }
  all: right; unfold alg_verify in Ha; apply rbind_ok in Ha as (k' & Hk & Ha); apply validate_key_same in Hk; subst k'; cbn [jmat change_key] in Ha;
    destruct (base64url_decode ss) as [raw|e] eqn:D; [|destruct e; discriminate]; apply mat_verified in Ha as (kw & Ha);
    exists raw; do 2 eexists; split; [apply url_octets_iff, D|exact Ha].
Qed.
Lemma c165_signs C rand cs k j token : serialize C rand j (Some (change_key cs k)) = Ok token -> halg (jheader j) <> Anone ->
  exists message ss sig h kw, token = message ++ 46 :: ss /\ signature_of C rand message (jmat k) h kw sig /\ (bytes_ok sig -> ss = rfc4648_url sig).
Proof.
  unfold serialize. intros H Ha. apply rbind_ok in H as (? & _ & H). apply rbind_ok in H as (hb & _ & H). cbv zeta in H. apply rbind_ok in H as (ss & Hs & H). injection H as <-.
  unfold alg_sign in Hs. destruct (halg (jheader j)) eqn:G; [congruence| | | |];
    apply rbind_ok in Hs as (k' & Hk & Hs); apply validate_key_same in Hk; subst k'; cbn [jmat change_key] in Hs; apply rbind_ok in Hs as (sig & Hm & Hs); injection Hs as <-;
    apply mat_signed in Hm as (kw & Hm); do 5 eexists; (split; [reflexivity|]); (split; [exact Hm|]); apply base64url_encode_rfc.
Qed.
Lemma c165_dump cs k pub out : jwk_dump k pub = Ok out ->
  exists out', jwk_dump (change_key cs k) pub = Ok out' /\ forall a, In a (own_members (jmat k)) -> lookup a out' = lookup a out.
Proof.
  unfold jwk_dump. cbn [jdata jmat change_key]. intros H. apply rbind_ok in H as (d & Hd & H). injection H as <-. rewrite Hd. cbn [rbind]. eexists. split; [reflexivity|].
  intros a Ha. rewrite !lookup_dupdate. destruct (lookup a (rev d)) eqn:E; [reflexivity|].
  assert (In a (allowed_attributes (jmat k))) as Hin.
  { destruct Ha as [<-|Ha].
    - exfalso. apply lookup_None in E. apply E. unfold keys. rewrite map_rev. apply in_rev. rewrite rev_involutive.
      destruct (jmat k) as [s|n e [o|]|c x y [o|]]; destruct pub; cbn in Hd; try discriminate; injection Hd as <-; left; reflexivity.
    - destruct (jmat k); exact Ha. }
  assert (F : forall l : pdict, lookup a (filter (fun kv => negb (ins (fst kv) (allowed_attributes (jmat k)))) l) = None); [|rewrite !F; reflexivity].
  intros l. apply lookup_None. intros K. apply in_map_iff in K as ([a' v] & <- & K). apply filter_In in K as (_ & K). cbn [fst] in *.
  apply negb_true_iff in K. apply ins_In in Hin. congruence.
Qed.

(** ** C166 *)
Lemma c166 C rand now claims d k k' t s cs now1 now2 algv :
  json_wf (PDict claims) = true -> json_wf (PDict d) = true -> without_none claims <> [] ->
  constructible C k -> constructible C k' -> verifying_key k k' -> backend_correct C (jmat k) ->
  JsonWebToken now (PDict claims) (PDict d) = Ok t -> jwt_encode C rand (change_claims cs t) (Some k) = Ok s ->
  (~ false_value algv -> algv = dget (lit "alg") d) ->
  (now <= now1)%Z -> (now <= now2)%Z ->
  (forall z, lookup (lit "exp") claims = Some (PInt z) -> z = 0%Z \/ (now1 < z)%Z /\ (now2 < z)%Z) ->
  exists t', jwt_decode_str C now1 now2 s (Some k') algv true PNone = Ok t' /\ tclaims t' = without_none claims.
Proof.
  intros. exists t. change (jwt_encode C rand t (Some k) = Ok s) in H7.
  destruct (p_jwt_roundtrip C rand now claims d k k' t s now1 now2 algv PNone) as (A & _ & B); auto. discriminate.
Qed.

(** ** C167 *)
Definition none_made : header := {| hdict := [(lit "alg", PStr (lit "none"))]; halg := Anone |}.
Lemma c167 C rand payload k name :
  In name signing_names -> bytes_ok payload ->
  (dget (lit "alg") (jdata k) = PNone \/ dget (lit "alg") (jdata k) = PStr name) ->
  dget (lit "use") (jdata k) = PNone -> dget (lit "key_ops") (jdata k) = PNone ->
  JsonWebSignatureHeader (PDict [(lit "alg", PStr (lit "none"))]) = Ok none_made /\
  exists hs ps hb, url_octets hs hb /\ json_object hb [(lit "alg", PStr name)] /\ url_octets ps payload /\
    serialize C rand {| jheader := change_header [Assign (lit "alg") (PStr name)] none_made; jpayload := payload |} (Some k) = Ok (hs ++ 46 :: ps ++ [46]).
Proof.
  intros Hn Hp Ha Hu Ho. split; [vm_compute; reflexivity|].
  assert (V : validate_key (Some k) (change_header [Assign (lit "alg") (PStr name)] none_made) = Ok tt).
  { unfold validate_key. rewrite Hu, Ho. change (dget (lit "alg") (hdict (change_header _ _))) with (PStr name). change (dget (lit "kid") (hdict (change_header _ _))) with PNone.
    destruct Ha as [->| ->]; cbn [truthy andb]; [reflexivity|]. cbn [py_eq]. rewrite eqs_refl. rewrite andb_false_r. reflexivity. }
  assert (J : exists hb, to_bytes (json_dumps (PDict [(lit "alg", PStr name)])) = Ok hb /\ url_octets (base64url_encode hb) hb /\ json_object hb [(lit "alg", PStr name)]).
  { repeat (destruct Hn as [<-|Hn]; [eexists; split; [vm_compute; reflexivity|]; split; [apply url_octets_iff; vm_compute; reflexivity|
      match goal with |- json_object _ ?d => apply (json_object_loads _ (json_dumps (PDict d))) end; vm_compute; reflexivity]|]). destruct Hn. }
  destruct J as (hb & J1 & J2 & J3). exists (base64url_encode hb), (base64url_encode payload), hb.
  split; [exact J2|]. split; [exact J3|]. split; [apply url_octets_iff, base64url_roundtrip; auto|].
  unfold serialize. cbn [jheader jpayload]. rewrite V. cbn [rbind]. change (hdict (change_header _ _)) with [(lit "alg", PStr name)]. rewrite J1. cbn [rbind]. cbv zeta.
  change (halg (change_header _ _)) with Anone. cbn [alg_sign rbind]. f_equal. rewrite <- app_assoc. reflexivity.
Qed.
Lemma c167_partial C rand h h' cs payload k k' token algv :
  json_wf (PDict (hdict (change_header cs h))) = true -> (forall n v, In (n, v) (hdict (change_header cs h)) -> v <> PNone) ->
  bytes_ok payload -> constructible C k -> constructible C k' -> verifying_key k k' -> backend_correct C (jmat k) ->
  JsonWebSignatureHeader (PDict (hdict (change_header cs h))) = Ok h' -> halg h' = halg h ->
  serialize C rand {| jheader := change_header cs h; jpayload := payload |} (Some k) = Ok token ->
  (~ false_value algv -> algv = dget (lit "alg") (hdict (change_header cs h))) ->
  deserialize C token (Some k') algv true = Ok {| jheader := change_header cs h; jpayload := payload |}.
Proof.
  intros Hw Hnn Hp Hk Hk' Hv B Hh Ha Hs Hal.
  assert (E : h' = change_header cs h).
  { pose proof Hh as K. apply header_iff in K as (_ & K & _). rewrite full_id in K by (apply Forall_forall; intros [n v] Hin; exact (Hnn n v Hin)). destruct h' as [d0 a0]. cbn [hdict halg] in *. subst. reflexivity. }
  subst h'. apply (p_jws_roundtrip C rand (hdict (change_header cs h)) (change_header cs h) payload k k' token algv); auto.
Qed.

(** ** C168 *)
Lemma get_key_any_found ks v : (forall k, In k ks -> lookup (lit "kid") (jdata k) <> None) -> get_key_any ks v = Ok (jwks_get_key ks v).
Proof.
  unfold jwks_get_key. induction ks as [|k ks IH]; intros H; cbn [get_key_any find]; [reflexivity|].
  unfold dget at 1. destruct (lookup (lit "kid") (jdata k)) as [w|] eqn:E; [|destruct (H k (or_introl eq_refl) E)].
  destruct (py_eq w v); [reflexivity|]. apply IH. intros x Hx. apply H. right. exact Hx.
Qed.
Lemma set_ids keys ks k : JsonWebKeySet keys = Ok ks -> In k ks -> lookup (lit "kid") (jdata k) <> None.
Proof. intros H Hin E. apply JsonWebKeySet_ok in H as (_ & _ & H & _). rewrite Forall_forall in H. apply (H k Hin). unfold kid, dget. rewrite E. reflexivity. Qed.
Lemma get_key_any_app ks l v : (forall k, In k ks -> lookup (lit "kid") (jdata k) <> None) ->
  get_key_any (ks ++ l) v = match jwks_get_key ks v with Some k => Ok (Some k) | None => get_key_any l v end.
Proof.
  unfold jwks_get_key. induction ks as [|k ks IH]; intros H; cbn [get_key_any find app]; [reflexivity|].
  unfold dget at 1. destruct (lookup (lit "kid") (jdata k)) as [w|] eqn:E; [|destruct (H k (or_introl eq_refl) E)].
  destruct (py_eq w v); [reflexivity|]. apply IH. intros x Hx. apply H. right. exact Hx.
Qed.
Lemma c168_no_id keys ks k id : JsonWebKeySet keys = Ok ks -> lookup (lit "kid") (jdata k) = None ->
  (forall x, In x ks -> kid x <> PStr id) -> get_key_any (ks ++ [k]) (PStr id) = Err KeyError.
Proof.
  intros H Hk Hn. rewrite get_key_any_app by (intros; eapply set_ids; eauto). rewrite (proj2 (p_get_key_str keys ks id H) Hn). cbn [get_key_any]. rewrite Hk. reflexivity.
Qed.
Lemma c168_same_id keys ks x k id : JsonWebKeySet keys = Ok ks -> In x ks -> kid x = PStr id -> kid k = PStr id ->
  get_key_any (ks ++ [k]) (PStr id) = Ok (Some x) /\ JsonWebKeySet (map Some (ks ++ [k])) = Err InvalidKeySet.
Proof.
  intros H Hin Hx Hk. split; [rewrite get_key_any_app by (intros; eapply set_ids; eauto); rewrite (proj1 (p_get_key_str keys ks id H) x Hin Hx); reflexivity|].
  pose proof H as K. apply JsonWebKeySet_ok in K as (_ & _ & _ & Hh & _).
  unfold JsonWebKeySet. destruct (map Some (ks ++ [k])) as [|k0 l] eqn:E; [reflexivity|]. rewrite <- E. clear E k0 l. rewrite all_some_map.
  change (map (fun k : jwk => dget (lit "kid") (jdata k)) (ks ++ [k])) with (map kid (ks ++ [k])). destruct (existsb is_none _); [reflexivity|].
  replace (forallb hashable (map kid (ks ++ [k]))) with true by (rewrite map_app, forallb_app, Hh; cbn [map forallb]; rewrite Hk; reflexivity). cbn [negb].
  destruct (distinct (map kid (ks ++ [k]))) eqn:D; [|reflexivity]. exfalso.
  apply in_split in Hin as (l1 & l2 & ->). rewrite <- app_assoc, map_app in D. cbn [app map] in D. rewrite map_app in D. cbn [map] in D.
  apply distinct_pair in D. rewrite Hx, Hk in D. cbn [py_eq] in D. rewrite eqs_refl in D. discriminate.
Qed.
Lemma c168_partial keys ks l id : JsonWebKeySet keys = Ok ks ->
  get_key_any ks (PStr id) = Ok (jwks_get_key ks (PStr id)) /\
  (forall x, In x ks -> kid x = PStr id -> get_key_any (ks ++ l) (PStr id) = Ok (Some x)).
Proof.
  intros H. split; [apply get_key_any_found; intros; eapply set_ids; eauto|]. intros x Hin Hx.
  rewrite get_key_any_app by (intros; eapply set_ids; eauto). rewrite (proj1 (p_get_key_str keys ks id H) x Hin Hx). reflexivity.
Qed.

(** ** The members *)
Lemma update_other (d e : pdict) n : (forall v, ~ In (n, v) e) -> lookup n (dupdate d e) = lookup n d.
Proof.
  unfold dupdate. revert d. induction e as [|[k u] e IH]; intros d Hn; [reflexivity|]. cbn [fold_left fst snd]. rewrite IH by (intros x Hx; apply (Hn x); right; exact Hx).
  apply lookup_dset_other. intros ->. apply (Hn u). left. reflexivity.
Qed.
Lemma update_member (d e : pdict) n v : In (n, v) e -> (forall u, In (n, u) e -> u = v) -> lookup n (dupdate d e) = Some v.
Proof.
  unfold dupdate. revert d. induction e as [|[k u] e IH]; intros d; [intros []|]. intros Hi Hu. cbn [fold_left fst snd].
  assert (D : (exists u, In (n, u) e) \/ forall u, ~ In (n, u) e).
  { clear. induction e as [|[k u] e [(x & Hx)|Hn]]; [right; auto|left; exists x; right; exact Hx|]. destruct (eqs n k) eqn:Ek; [apply eqs_true in Ek; subst k; left; exists u; left; reflexivity|].
    right. intros x [H|H]; [|exact (Hn _ H)]. injection H as -> _. rewrite eqs_refl in Ek. discriminate. }
  destruct D as [(x & Hx)|Hn].
  - assert (x = v) by (apply Hu; right; exact Hx). subst x. apply IH; [exact Hx|]. intros y Hy. apply Hu. right. exact Hy.
  - destruct Hi as [H|H]; [|destruct (Hn _ H)]. injection H as -> ->. pose proof (update_other (dset n v d) e n Hn) as O. unfold dupdate in O. rewrite O. apply lookup_dset_same.
Qed.
Lemma remove_same (n : str) (d : pdict) : lookup n (dremove n d) = None.
Proof. induction d as [|[k u] d IH]; [reflexivity|]. unfold dremove in *. cbn [filter fst]. destruct (eqs n k) eqn:Ek; cbn [negb]; [exact IH|]. cbn [lookup]. rewrite Ek. exact IH. Qed.
Lemma remove_other (n m : str) (d : pdict) : m <> n -> lookup n (dremove m d) = lookup n d.
Proof.
  intros Hm. induction d as [|[k u] d IH]; [reflexivity|]. unfold dremove in *. cbn [filter fst]. destruct (eqs m k) eqn:Ek; cbn [negb].
  - apply eqs_true in Ek. subst k. cbn [lookup]. destruct (eqs n m) eqn:En; [apply eqs_true in En; congruence|exact IH].
  - cbn [lookup]. rewrite IH. reflexivity.
Qed.
Lemma members_full d n cs v : member_after true d n cs v -> lookup n (fold_left changed_full cs d) = v.
Proof.
  intros H. induction H as [|cs v Hi|cs e v H1 H2|cs|cs c v Ht H IH]; [reflexivity| | | |]; rewrite fold_left_app; cbn [fold_left changed_full].
  - unfold full_setitem. destruct (is_none v) eqn:En; [|apply lookup_dset_same]. destruct Hi. split; [reflexivity|]. destruct v; try discriminate. reflexivity.
  - apply update_member; assumption.
  - apply remove_same.
  - rewrite <- IH. destruct c as [m u|e|m]; cbn [touches changed_full] in *.
    + unfold full_setitem. destruct (is_none u) eqn:En; [reflexivity|]. apply lookup_dset_other. intros ->. apply Ht. split; [reflexivity|]. intros [_ ->]. discriminate.
    + apply update_other. eauto.
    + apply remove_other. exact Ht.
Qed.
Lemma members_plain d n cs v : member_after false d n cs v -> lookup n (fold_left changed cs d) = v.
Proof.
  intros H. induction H as [|cs v Hi|cs e v H1 H2|cs|cs c v Ht H IH]; [reflexivity| | | |]; rewrite fold_left_app; cbn [fold_left changed].
  - apply lookup_dset_same.
  - apply update_member; assumption.
  - apply remove_same.
  - rewrite <- IH. destruct c as [m u|e|m]; cbn [touches changed] in *.
    + apply lookup_dset_other. intros ->. apply Ht. split; [reflexivity|]. intros [[=] _].
    + apply update_other. eauto.
    + apply remove_other. exact Ht.
Qed.
Theorem c165_members cs k n v : member_after true (jdata k) n cs v -> lookup n (jdata (change_key cs k)) = v.
Proof. apply members_full. Qed.
Theorem c166_members cs t n v : member_after false (tclaims t) n cs v -> lookup n (tclaims (change_claims cs t)) = v.
Proof. apply members_plain. Qed.
Theorem c167_members cs h n v : member_after false (hdict h) n cs v -> lookup n (hdict (change_header cs h)) = v.
Proof. apply members_plain. Qed.
