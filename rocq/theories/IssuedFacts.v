(** What is accepted was issued, or is a forgery: lemmas for C149. *)
From Coq Require Import String Ascii List NArith ZArith Bool Lia.
From Verif Require Import Base BaseFacts SpecCodec Utf8 Utf8Facts Base64 Base64Facts Json JsonFacts Url Webtools WebtoolsFacts Crypto Jwk SpecKey Jws SpecJws JwsFacts Jwt JwtFacts SpecReaders ReadJwsFacts SpecIssued SpecJwt Prog ProgFacts Http OAuth SpecOAuth OAuthFacts GrantFacts EndpointFacts RequestFacts TokenFacts ResponseFacts IdTokenFacts DescFacts SpecHook HookFacts ExTokenFacts Example ExampleFacts.
Import ListNotations.
Open Scope N_scope.
Notation rbind_ok := BaseFacts.rbind_ok.

Lemma issued_parts C k j t : constructible C k -> backend_correct C (jmat k) -> issued C k j t ->
  exists d hb ss, json_wf (PDict d) = true /\ JsonWebSignatureHeader (PDict d) = Ok (jheader j) /\ utf8_encode (dumps (PDict (full d))) = Ok hb /\
    bytes_ok hb /\ bytes_ok (jpayload j) /\ segments t (base64url_encode hb) (base64url_encode (jpayload j)) ss.
Proof.
  intros Hk Hb (rand & d & Hw & Hp & Hh & Hs). destruct j as [h p]. cbn [jheader jpayload] in *.
  destruct (serialize_ok C rand d h p k t Hk (json_wf_NoDup _ Hw) Hh Hs) as (_ & hb & Eb & Ht). cbv zeta in Ht.
  assert (Ob : bytes_ok hb) by (apply utf8_encode_ok in Eb; tauto). pose proof (b64_no_dot _ Ob) as D1. pose proof (b64_no_dot _ Hp) as D2.
  destruct Ht as [(_ & ->)|(Ha & F & sig & Es & ->)].
  - exists d, hb, []. do 5 (split; [assumption|]). split; [rewrite <- app_assoc; reflexivity|]. do 2 (split; [assumption|]). intros [].
  - exists d, hb, (base64url_encode sig). do 5 (split; [assumption|]). split; [rewrite <- app_assoc; reflexivity|]. do 2 (split; [assumption|]).
    apply b64_no_dot. eapply mat_sign_accepts; eauto.
Qed.
Lemma cut_inj a b c d : ~ In 46 a -> ~ In 46 c -> a ++ 46 :: b = c ++ 46 :: d -> a = c /\ b = d.
Proof.
  revert c. induction a as [|x a IH]; intros [|y c] Ha Hc E; cbn [app] in E.
  - injection E as E. auto.
  - injection E as <- E. destruct Hc. left. reflexivity.
  - injection E as -> E. destruct Ha. left. reflexivity.
  - injection E as <- E. destruct (IH c) as [-> ->]; auto; intros H; [apply Ha|apply Hc]; right; exact H.
Qed.
Lemma same_input C k k' j j' algv token t hs ps ss ss' : constructible C k -> constructible C k' -> backend_correct C (jmat k) -> issued C k j' t ->
  segments token hs ps ss -> segments t hs ps ss' -> deserialize C token (Some k') algv true = Ok j -> j = j'.
Proof.
  intros Hk Hk' Hb Hi S S' H. destruct (issued_parts _ _ _ _ Hk Hb Hi) as (d & hb & ss0 & Hw & Hh & Eb & Ob & Op & S0).
  destruct (segments_inj _ _ _ _ _ _ _ S' S0) as (-> & -> & ->). apply p_jws_iff in H; [|exact Hk'].
  destruct H as (hs1 & ps1 & t1 & hb1 & s1 & d1 & n1 & A1 & A2 & A3 & A4 & A5 & A6 & A7 & A8 & A9 & _).
  destruct (segments_inj _ _ _ _ _ _ _ A1 S) as (-> & -> & ->). rewrite base64url_roundtrip in A2, A9 by assumption. injection A2 as <-. injection A9 as A9.
  apply utf8_dec_rfc in A3. assert (s1 = dumps (PDict (full d))) as -> by (apply utf8_decode_encode in Eb; congruence).
  rewrite loads_dumps in A4 by (apply json_wf_full; exact Hw). injection A4 as <-.
  apply header_iff in Hh as (_ & Hd & Hl). rewrite lookup_full in A6 by (apply json_wf_NoDup, Hw). rewrite Hl in A6. cbn in A6. injection A6 as A6.
  destruct j as [[x y] z], j' as [[x' y'] z']. cbn [jheader jpayload hdict halg] in *. rewrite without_none_full in A7.
  f_equal; [f_equal|]; [rewrite A7, Hd; unfold full; apply full_full|apply alg_name_inj; congruence|congruence].
Qed.
Lemma c149 C k' log token algv j : constructible C k' ->
  (forall x t, In (x, t) log -> exists k, constructible C k /\ backend_correct C (jmat k) /\ issued C k x t) -> algorithm_stated algv k' ->
  deserialize C token (Some k') algv true = Ok j ->
  In j (map fst log) \/ forgery C (jmat k') (map snd log) token.
Proof.
  intros Hk' Hl Ha H. destruct (r_signed_partial _ _ _ _ _ Hk' H Ha) as (hs & ps & ss & sig & name & S & Hs & _ & _ & Hacc).
  assert (D : (exists x t ss', In (x, t) log /\ segments t hs ps ss') \/ (forall t hs' ps' ss', In t (map snd log) -> segments t hs' ps' ss' -> hs' ++ 46 :: ps' <> hs ++ 46 :: ps)).
  { clear Hl. induction log as [|[x t] log IH]; [right; intros ? ? ? ? []|]. destruct IH as [(x' & t' & ss' & Hi & Hs')|IH]; [left; exists x', t', ss'; split; [right; exact Hi|exact Hs']|].
    destruct (list_eq_dec (list_eq_dec N.eq_dec) (firstn 2 (split_on 46 t)) [hs; ps]) as [E|E].
    - destruct (split_on 46 t) as [|a [|b [|c [|e l]]]] eqn:Et; cbn [firstn] in E; try discriminate.
      + right. intros t0 hs' ps' ss' [<-|Hi] S'; [|eapply IH; eauto]. apply split3 in S'. cbn [snd] in S'. rewrite Et in S'. discriminate.
      + injection E as -> ->. left. exists x, t, c. split; [left; reflexivity|]. apply split3. exact Et.
      + right. intros t0 hs' ps' ss' [<-|Hi] S'; [|eapply IH; eauto]. apply split3 in S'. cbn [snd] in S'. rewrite Et in S'. discriminate.
    - right. intros t0 hs' ps' ss' [<-|Hi] S'; [|eapply IH; eauto]. cbn [snd] in S'. intros K.
      destruct S as (_ & D1 & D2 & _). pose proof S' as (_ & D3 & D4 & _). destruct (cut_inj _ _ _ _ D3 D1 K) as [-> ->].
      apply split3 in S'. rewrite S' in E. apply E. reflexivity. }
  destruct D as [(x & t & ss' & Hi & S')|D].
  - left. apply in_map_iff. exists (x, t). split; [|exact Hi]. cbn [fst]. symmetry. destruct (Hl _ _ Hi) as (k & Hk & Hb & Hx). apply (same_input C k k' j x algv token t hs ps ss ss'); auto.
  - right. exists hs, ps, ss, sig, name. auto.
Qed.

(** ** Claims *)
Lemma issued_claims C k t s : constructible C k -> backend_correct C (jmat k) -> issued_jwt C k t s -> issued C k (tjws t) s.
Proof.
  intros Hk Hb (rand & now & c & d & Hc & Hd & Ht & Hs). unfold JsonWebToken in Ht.
  apply rbind_ok in Ht as (h & Eh & Ht). apply rbind_ok in Ht as (c' & Ec & Ht). apply rbind_ok in Ht as (pl & Ep & Ht). injection Ht as <-.
  unfold jwt_encode in Hs. apply rbind_ok in Hs as (b & Es & Hs). injection Hs as Hs. cbn [tjws] in *.
  assert (Op : bytes_ok pl) by (unfold to_bytes in Ep; apply utf8_encode_ok in Ep; tauto).
  pose proof (serialize_ascii C rand d h pl k b Hk (json_wf_NoDup _ Hd) Hb Op Eh Es) as A.
  rewrite to_string_ascii in Hs by exact A. subst s. exists rand, d. cbn [jheader jpayload]. auto.
Qed.
Lemma c149_jwt C k' log token b now1 now2 algv options t : constructible C k' ->
  (forall x s, In (x, s) log -> exists k, constructible C k /\ backend_correct C (jmat k) /\ issued_jwt C k x s) -> algorithm_stated algv k' ->
  to_bytes token = Ok b -> jwt_decode_str C now1 now2 token (Some k') algv true options = Ok t ->
  In t (map fst log) \/ forgery C (jmat k') (map snd log) b.
Proof.
  intros Hk' Hl Ha Ht H. unfold jwt_decode_str in H. rewrite Ht in H. cbn [rbind] in H.
  apply p_decode_iff in H as (j & s & c & Ed & Es & El & _ & _ & _ & _ & _ & E1 & E2 & E3).
  destruct (c149 C k' (map (fun xs => (tjws (fst xs), snd xs)) log) b algv j) as [Hi|Hf]; auto.
  - intros x t' Hi. apply in_map_iff in Hi as ((t0 & s0) & [= <- <-] & Hi). destruct (Hl _ _ Hi) as (k & Hk & Hb & Hx). exists k. do 2 (split; [assumption|]). apply issued_claims; auto.
  - left. rewrite map_map in Hi. apply in_map_iff in Hi as ((t' & s') & <- & Hi). cbn [fst] in *. apply in_map_iff. exists (t', s'). split; [|exact Hi].
    destruct (Hl _ _ Hi) as (k & Hk & Hb & rand & now & c' & d & Hc & Hd & Htt & _). unfold JsonWebToken in Htt.
    apply rbind_ok in Htt as (h & Eh & Htt). apply rbind_ok in Htt as (c2 & Ec & Htt). apply rbind_ok in Htt as (pl & Ep & Htt). injection Htt as <-.
    apply p_claims_iff in Ec as (c3 & [= <-] & _ & _ & ->). cbn [fst tjws jheader jpayload tclaims] in *. unfold to_bytes, json_dumps in Ep.
    apply utf8_dec_rfc in Es. assert (s = dumps (PDict (without_none c'))) as -> by (apply utf8_decode_encode in Ep; congruence).
    assert (Hw : json_wf (PDict (without_none c')) = true) by (rewrite without_none_full; apply json_wf_full, Hc).
    rewrite loads_dumps in El by exact Hw. injection El as <-. rewrite !without_none_full, full_idem in *.
    destruct t as [tc [th tp]]. cbn [tclaims tjws jheader jpayload] in *. subst tc th. unfold json_dumps in E3. rewrite Ep in E3. injection E3 as <-. reflexivity.
  - right. rewrite map_map in Hf. cbn [snd] in Hf. exact Hf.
Qed.

(** ** ID tokens *)
Section WithEnv.
Variable E : env.
Lemma generated_issued h token scope c u tr t : exec (generate_id_token E h token scope c u) tr (V t) ->
  exists key alg info utc off a at_hash tk,
    In (OGetKeyInfo (hk_adapter h) (V (key, alg))) tr /\ In (OGetUserinfo (hk_adapter h) u (words scope) (V info)) tr /\ In (ONow (V (utc, off))) tr /\
    lookup (lit "access_token") token = Some (PStr a) /\ half_hash (e_hashlib E) a alg at_hash /\
    (json_wf (PDict info) = true -> issued_jwt (e_crypto E) key tk t /\
       id_claims (cf_issuer (hk_config h)) (cl_id c) at_hash (utcnow_timestamp utc off) (cf_id_token_lifespan (hk_config h)) info (tclaims tk)).
Proof.
  intros H. destruct (id_token_exec _ _ _ _ _ _ _ _ H) as (key & alg & info & utc & off & a & ah & utc1 & off1 & cl & kid & utc2 & off2 & tk & rand & -> & Ha & Hh & Hid & Hkid & Htk & Henc).
  pose proof (IDToken_ok _ _ _ Hid) as Hcl.
  exists key, alg, info, utc, off, a, ah, tk. split; [left; auto|]. split; [right; left; auto|]. split; [right; right; left; auto|].
  split; [auto|]. split; [apply half_hash_ok; auto|]. intros Hw.
  assert (Hwc : json_wf (PDict cl) = true). { rewrite Hcl, without_none_full. apply json_wf_full. apply json_wf_dupdate; [auto|reflexivity]. }
  assert (Hfull : without_none cl = cl) by (rewrite Hcl, !without_none_full; apply full_idem).
  pose proof Htk as Htk'. unfold JsonWebToken in Htk. apply rbind_ok in Htk as (hd & Ehd & Htk). apply rbind_ok in Htk as (cc & Ecc & Htk).
  assert (Hwd : json_wf (PDict (id_header alg kid)) = true).
  { apply header_iff in Ehd as ((_ & Ht & _) & _). destruct (Ht (lit "kid") kid) as (s & -> & _); [simpl; auto|reflexivity|]. reflexivity. }
  split; [exists rand, (utcnow_timestamp utc2 off2), cl, (id_header alg kid); auto|].
  apply rbind_ok in Htk as (pl & _ & Htk). injection Htk as <-. cbn [tclaims]. apply p_claims_iff in Ecc as (c3 & [= <-] & _ & _ & ->).
  rewrite Hfull, Hcl. apply id_claims_ok. apply json_wf_NoDup. exact Hw.
Qed.
Lemma dump_id e : lookup (lit "id_token") (dump e) = None.
Proof. rewrite dump_params. unfold error_params, opt_param. destruct (oe_desc e), (oe_uri e), (oe_state e); reflexivity. Qed.
Lemma answered_id p hs r tr x : exec (token_endpoint E p hs r) tr (V x) ->
  exists d, json_body x d /\ (lookup (lit "id_token") d = None \/ exists t, lookup (lit "id_token") d = Some (PStr t) /\
    exists i c code ac u a h key alg info utc off at_hash sc tk,
      authenticates r i c /\ data_has r "grant_type" (lit "authorization_code") /\ data_has r "code" code /\
      In (OGetCode code (V (Some ac))) tr /\ In (OFindUser (ac_user ac) (V (Some u))) tr /\
      lookup (lit "access_token") d = Some (PStr a) /\ In h (hk_response hs) /\ In (OGetKeyInfo (hk_adapter h) (V (key, alg))) tr /\
      In (OGetUserinfo (hk_adapter h) u sc (V info)) tr /\ In (ONow (V (utc, off))) tr /\ half_hash (e_hashlib E) a alg at_hash /\
      (json_wf (PDict info) = true -> issued_jwt (e_crypto E) key tk t /\
         id_claims (cf_issuer (hk_config h)) (cl_id c) at_hash (utcnow_timestamp utc off) (cf_id_token_lifespan (hk_config h)) info (tclaims tk))).
Proof.
  intros H. pose proof H as H0. apply token_exec in H as (y & Hy & Hx). destruct y as [y|[e|e]]; [| |discriminate].
  2:{ symmetry in Hx. unfold token_error in Hx. apply json_response_V in Hx as (Hs & Hj & _); [|apply dump_wf]. exists (dump e). split; [exact Hj|left; apply dump_id]. }
  injection Hx as <-. apply token_body_exec in Hy. inversion Hy as [| | |g i c tr' y' Hg Hd Ha Hm Hin Hex E1 E2].
  destruct y' as [d|]; [|discriminate].
  pose proof Hex as Hdict. apply grant_dict in Hdict as (a0 & ow & sc0 & _ & Hw & _).
  pose proof E2 as E3. apply json_response_V in E3 as (Hs & Hj & Hh); [|auto]. destruct g; cbn [grant_token] in Hex.
  - clear Hex E2 Ha Hin Hm. destruct (code_response _ _ _ _ _ _ H0 Hs Hd) as (i2 & c2 & code & ac & u & a & d' & rt & t1 & t2 & t3 & Et & Hau & _ & Hc & Hgc & Hu & _ & Hj' & Hacc & Hx).
    assert (d' = d) by (eapply json_same; eauto). subst d'. exists d. split; [auto|].
    pose proof (create_token_scope a (cf_token_lifespan (pv_config p)) rt (ac_scopes ac)) as Hsc.
    destruct (hk_response hs) as [|h0 l0] eqn:Ehs.
    { simpl in Hx. destruct Hx as [_ Hx]. injection Hx as ->. left. apply create_token_id. }
    rewrite <- Ehs in *. assert (Hne : hk_response hs <> []) by congruence.
    destruct (ac_scopes ac) as [|s0 sl] eqn:Eac.
    { exfalso. rewrite Ehs in Hx. simpl in Hx. apply exec_pbind in Hx as [(upd & u1 & u2 & -> & H1 & _)|(e & ? & _)]; [|discriminate].
      unfold oidc_token_response in H1. rewrite Hsc in H1. apply exec_Ret in H1 as [_ H1]. discriminate. }
    rewrite <- Eac in *. destruct (hooks_id _ _ _ _ _ _ _ _ Hx Hsc) as [H1 H2].
    destruct (substr (lit "openid") (unwords (ac_scopes ac))); [|left; rewrite (H1 eq_refl); apply create_token_id].
    destruct H2 as (h & t & dm & u1 & u2 & u3 & Hin & Hl & Eu & Hgen & Hdm); [auto|auto|].
    right. exists t. split; [exact Hl|].
    destruct (generated_issued _ _ _ _ _ _ _ Hgen) as (key & alg & info & utc & off & a' & ah & tk & I1 & I2 & I3 & Ha & Hhh & Hcl).
    rewrite Hdm, create_token_access in Ha. injection Ha as <-.
    assert (Hinc : forall o, In o u2 -> In o (t1 ++ t2 ++ t3)). { intros o Ho. rewrite Eu, !in_app_iff. auto. }
    rewrite ?E1, Et. exists i2, c2, code, ac, u, a, h, key, alg, info, utc, off, ah, (words (unwords (ac_scopes ac))), tk.
    do 3 (split; [auto|]). split; [apply in_app_iff; auto|]. split; [apply in_app_iff; auto|]. do 6 (split; [auto|]). auto.
  - exists d. split; [auto|]. left. apply cc_exec in Hex as [[_ [d' Hex]]|(_ & [a|e] & -> & Hex)]; try discriminate. injection Hex as ->. apply create_token_id.
  - exists d. split; [auto|]. left. apply refresh_exec in Hex as [[_ [e He]] | (token & t & sc & ou & t2 & (_ & _ & _ & now & off & dd & -> & _) & Hss)]; [discriminate|].
    destruct Hss as [(e & _ & He) | (a & [(e & _ & He & _) | (rt & t3 & -> & _ & Hx)])]; try discriminate.
    injection Hx as ->. apply create_token_id.
Qed.
Lemma id_log p hs answers : 
  (forall r tr x, In (r, tr, x) answers -> exec (token_endpoint E p hs r) tr (V x)) ->
  (forall r tr x aid key alg, In (r, tr, x) answers -> In (OGetKeyInfo aid (V (key, alg))) tr -> constructible (e_crypto E) key /\ backend_correct (e_crypto E) (jmat key)) ->
  (forall r tr x aid u sc info, In (r, tr, x) answers -> In (OGetUserinfo aid u sc (V info)) tr -> json_wf (PDict info) = true) ->
  exists log, (forall t, In t (map snd log) <-> answered_id_token answers t) /\
    forall tk t, In (tk, t) log -> (exists k, constructible (e_crypto E) k /\ backend_correct (e_crypto E) (jmat k) /\ issued_jwt (e_crypto E) k tk t) /\
      exists r tr x, In (r, tr, x) answers /\ exchanged_for E hs r tr x (tclaims tk).
Proof.
  induction answers as [|[[r tr] x] l IH]; intros H1 H2 H3.
  - exists []. split; [|intros ? ? []]. intros t. split; [intros []|intros (? & ? & ? & ? & [] & _)].
  - destruct IH as (log & Hl & Hi).
    { intros r0 tr0 x0 Hin. apply H1. right. exact Hin. } { intros r0 tr0 x0 aid key alg Hin. apply (H2 r0 tr0 x0). right. exact Hin. } { intros r0 tr0 x0 aid u sc info Hin. apply (H3 r0 tr0 x0). right. exact Hin. }
    destruct (answered_id p hs r tr x (H1 _ _ _ (or_introl eq_refl))) as (d & Hj & [Hn|(t & Ht & i & c & code & ac & u & a & h & key & alg & info & utc & off & ah & sc & tk & A1 & A2 & A3 & A4 & A5 & A6 & A7 & A8 & A9 & A10 & A11 & A12)]).
    + exists log. split.
      * intros t. rewrite Hl. unfold answered_id_token. split.
        -- intros (r0 & tr0 & x0 & d0 & Hin & Hr). exists r0, tr0, x0, d0. split; [right; exact Hin|exact Hr].
        -- intros (r0 & tr0 & x0 & d0 & [[= <- <- <-]|Hin] & Hr); [|exists r0, tr0, x0, d0; auto]. destruct Hr as [Hj0 Hr]. rewrite (json_same _ _ _ Hj0 Hj) in Hr. change chars with lit in Hr. congruence.
      * intros tk t Hin. destruct (Hi _ _ Hin) as (Hk & r0 & tr0 & x0 & Hin0 & Hr). split; [exact Hk|]. exists r0, tr0, x0. split; [right; exact Hin0|exact Hr].
    + destruct (A12 (H3 _ _ _ _ _ _ _ (or_introl eq_refl) A9)) as [B1 B2]. destruct (H2 _ _ _ _ _ _ (or_introl eq_refl) A8) as [K1 K2].
      exists ((tk, t) :: log). split.
      * intros t0. cbn [map snd In]. rewrite Hl. unfold answered_id_token. split.
        -- intros [<-|(r0 & tr0 & x0 & d0 & Hin & Hr)]; [exists r, tr, x, d; split; [left; reflexivity|auto]|]. exists r0, tr0, x0, d0. split; [right; exact Hin|exact Hr].
        -- intros (r0 & tr0 & x0 & d0 & [[= <- <- <-]|Hin] & Hr); [|right; exists r0, tr0, x0, d0; auto]. destruct Hr as [Hj0 Hr]. rewrite (json_same _ _ _ Hj0 Hj) in Hr. change chars with lit in Hr. left. congruence.
      * intros tk0 t0 [[= <- <-]|Hin].
        -- split; [exists key; auto|]. exists r, tr, x. split; [left; reflexivity|]. exists i, c, code, ac, u, a, d, h, alg, info, utc, off, ah, sc. do 10 (split; [auto|]). auto.
        -- destruct (Hi _ _ Hin) as (Hk & r0 & tr0 & x0 & Hin0 & Hr). split; [exact Hk|]. exists r0, tr0, x0. split; [right; exact Hin0|exact Hr].
Qed.
(** C150 *)
Lemma c150 p hs answers k' token b now1 now2 algv options tk :
  (forall r tr x, In (r, tr, x) answers -> exec (token_endpoint E p hs r) tr (V x)) ->
  (forall r tr x aid key alg, In (r, tr, x) answers -> In (OGetKeyInfo aid (V (key, alg))) tr -> constructible (e_crypto E) key /\ backend_correct (e_crypto E) (jmat key)) ->
  (forall r tr x aid u sc info, In (r, tr, x) answers -> In (OGetUserinfo aid u sc (V info)) tr -> json_wf (PDict info) = true) ->
  constructible (e_crypto E) k' -> algorithm_stated algv k' ->
  to_bytes token = Ok b -> jwt_decode_str (e_crypto E) now1 now2 token (Some k') algv true options = Ok tk ->
  (exists r tr x, In (r, tr, x) answers /\ exchanged_for E hs r tr x (tclaims tk)) \/
  exists tokens, (forall t, In t tokens <-> answered_id_token answers t) /\ forgery (e_crypto E) (jmat k') tokens b.
Proof.
  intros H1 H2 H3 Hk' Ha Hb H. destruct (id_log p hs answers H1 H2 H3) as (log & Hl & Hi).
  destruct (c149_jwt (e_crypto E) k' log token b now1 now2 algv options tk) as [Hin|Hf]; auto.
  - intros x s Hin. apply (Hi x s Hin).
  - left. apply in_map_iff in Hin as ([tk' t'] & Etk & Hin). cbn [fst] in Etk. subst tk'. apply (Hi _ _ Hin).
  - right. exists (map snd log). auto.
Qed.
End WithEnv.

(** ** C151 *)
Lemma c151_refuted E C aware p hs r tr x s s' : mac_bytes C -> exec (token_endpoint E p hs r) tr (V x) -> rs_status x = 200 ->
  data_has r "grant_type" (lit "authorization_code") -> ex_steps C aware s tr s' ->
  exists d a now, json_body x d /\ lookup (chars "access_token") d = Some (PStr a) /\
    forall now1 now2, (now <= now1 < now + 3600)%Z -> (now <= now2 < now + 3600)%Z ->
      exists tk, jwt_decode_str C now1 now2 a (Some SECRET_KEY) (PStr (chars "HS256")) true PNone = Ok tk.
Proof.
  intros Hm H Hs Hg Hx. destruct (p_access_response _ _ _ _ _ _ _ _ _ _ Hm H Hs Hg Hx) as (i & c & code & ac & u & d & a & now & _ & _ & _ & _ & _ & Hj & Ha & claims & _ & Hd & _).
  exists d, a, now. split; [exact Hj|]. split; [exact Ha|]. intros now1 now2 N1 N2. destruct (Hd now1 now2 N1 N2) as (tk & Ht & _). exists tk. exact Ht.
Qed.
Lemma c151_audience E C aware p hs r tr x s s' : mac_bytes C -> exec (token_endpoint E p hs r) tr (V x) -> rs_status x = 200 ->
  data_has r "grant_type" (lit "authorization_code") -> ex_steps C aware s tr s' ->
  exists d a, json_body x d /\ lookup (chars "access_token") d = Some (PStr a) /\
    forall C' now1 now2 key algv o options tk, ~ false_value (dget (chars "essential") o) \/ (exists y, dget (chars "value") o = PStr y /\ y <> []) ->
      jwt_decode_str C' now1 now2 a key algv true (PDict ((chars "aud", PDict o) :: options)) <> Ok tk.
Proof.
  intros Hm H Hs Hg Hx. destruct (p_access_response _ _ _ _ _ _ _ _ _ _ Hm H Hs Hg Hx) as (i & c & code & ac & u & d & a & now & _ & _ & _ & _ & _ & Hj & Ha & claims & Hcl & Hd & _).
  exists d, a. split; [exact Hj|]. split; [exact Ha|]. intros C' now1 now2 key algv o options tk Ho Hdec.
  destruct (Hd now now) as (tk0 & Ht & Hc); [lia|lia|]. pose proof (decode_claims _ _ _ _ _ _ _ _ _ _ _ _ _ _ _ _ _ Ht Hdec) as Heq.
  assert (Haud : lookup (lit "aud") (tclaims tk) = None).
  { rewrite <- Heq, Hc. destruct (lookup (lit "aud") claims) eqn:El; [|reflexivity]. destruct Hcl as (_ & _ & _ & _ & _ & _ & _ & Hk).
    specialize (Hk (lit "aud")). rewrite El in Hk. exfalso. assert (Hk' : In (lit "aud") (map lit ["iss"; "exp"; "sub"; "iat"; "jti"; "client_id"; "scope"]%string)) by (apply Hk; discriminate).
    apply ins_In in Hk'. discriminate Hk'. }
  unfold jwt_decode_str in Hdec. apply rbind_ok in Hdec as (b & _ & Hdec). apply p_decode_iff in Hdec as (j & s0 & c0 & _ & _ & Hl & Hne & _ & Hmet & _ & Hv & Htc & _).
  specialize (Hv eq_refl _ eq_refl). assert (Hn : NoDup (keys c0)) by (apply loads_dict in Hl; tauto).
  assert (Hg0 : dget (lit "aud") c0 = PNone). { rewrite Htc, without_none_full, lookup_full in Haud by exact Hn. unfold dget. destruct (lookup (lit "aud") c0) as [[]|]; congruence. }
  destruct (p_options_partial c0 [] (lit "aud") o options Hv) as (O1 & O2 & _); [intros kv []|]. destruct Ho as [Ho|(y & Ey & Hy)].
  - apply O1; [exact Ho|exact Hg0].
  - change chars with lit in Ey. rewrite Ey, Hg0 in O2. assert (Hs2 : same PNone (PStr y)) by (apply O2; intros F; inversion F; congruence). inversion Hs2 as [|q1 q2 q3 W| | | |]. inversion W.
Qed.
