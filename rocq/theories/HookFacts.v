(** Code exchanges with the OpenID Connect hook: lemmas for C94 and C95. *)
From Coq Require Import String Ascii List NArith ZArith Bool Lia ZifyBool ZifyNat ZifyN.
From Verif Require Import Base BaseFacts SpecPy PyFacts Utf8 Utf8Facts Base64 Base64Facts SpecCodec SpecKey Json JsonFacts Url Webtools WebtoolsFacts Crypto Jwk JwkFacts Jws SpecJws JwsFacts Jwt SpecJwt JwtFacts Prog ProgFacts Http OAuth SpecOAuth SpecHistory SpecFlow OAuthFacts GrantFacts EndpointFacts RequestFacts AuthzFacts TokenFacts ResponseFacts IssueFacts IdTokenFacts RaiseFacts CompleteFacts SpecHook.
Import ListNotations.
Open Scope N_scope.
Ltac Zify.zify_post_hook ::= Z.div_mod_to_equations.

(** ** JSON texts of values without lone surrogates *)
Lemma scalar_dict d : scalar_val (PDict d) <-> Forall (fun kv => scalar_str (fst kv) /\ scalar_val (snd kv)) d.
Proof.
  cbn [scalar_val]. induction d as [|kv d IH]; cbn [fold_right]; [split; [constructor|auto]|].
  rewrite IH. split; [intros [H1 H2]; constructor; auto|intros H; inversion H; auto].
Qed.
Lemma scalar_list l : scalar_val (PList l) <-> Forall scalar_val l.
Proof.
  cbn [scalar_val]. induction l as [|x l IH]; cbn [fold_right]; [split; [constructor|auto]|].
  rewrite IH. split; [intros [H1 H2]; constructor; auto|intros H; inversion H; auto].
Qed.
Lemma scalar_dumps v : scalar_val v -> scalar_str (dumps v).
Proof.
  induction v as [|b|z|s|s|l HF|d HF] using pyval_ind'; intros H.
  - slit.
  - destruct b; slit.
  - apply (scalar_dumps_flat (PInt z)). exact I.
  - exact H.
  - apply scalar_dumps_str. exact H.
  - apply scalar_list in H. cbn [dumps]. constructor; [unfold is_scalar; lia|]. apply Forall_app. split; [|repeat constructor; unfold is_scalar; lia].
    apply scalar_join; [apply scalar_small; repeat constructor; lia|]. apply Forall_map.
    rewrite Forall_forall in *. intros x Hx. apply HF; auto.
  - apply scalar_dict in H. cbn [dumps]. constructor; [unfold is_scalar; lia|]. apply Forall_app. split; [|repeat constructor; unfold is_scalar; lia].
    apply scalar_join; [apply scalar_small; repeat constructor; lia|]. apply Forall_map. rewrite Forall_forall in *.
    intros [k v] Hx. destruct (H _ Hx) as [H1 H2]. cbn [fst snd] in *. apply Forall_app. split; [apply scalar_dumps_str; auto|].
    constructor; [unfold is_scalar; lia|]. constructor; [unfold is_scalar; lia|]. apply (HF (k, v)); auto.
Qed.
Lemma scalar_filter f d : scalar_val (PDict d) -> scalar_val (PDict (filter f d)).
Proof. rewrite !scalar_dict, !Forall_forall. intros H kv Hin. apply filter_In in Hin. apply H. tauto. Qed.
Lemma scalar_dset k v d : scalar_str k -> scalar_val v -> scalar_val (PDict d) -> scalar_val (PDict (dset k v d)).
Proof.
  intros Hk Hv. rewrite !scalar_dict. induction d as [|[k' v'] d IH]; intros H; cbn [dset]; [repeat constructor; auto|].
  inversion H as [|? ? H1 H2]; subst. destruct (eqs k k'); constructor; auto; try (split; [apply H1|exact Hv]).
Qed.
Lemma scalar_dupdate e : forall d, scalar_val (PDict d) -> scalar_val (PDict e) -> scalar_val (PDict (dupdate d e)).
Proof.
  unfold dupdate. induction e as [|[k v] e IH]; intros d Hd He; cbn [fold_left fst snd]; [auto|].
  rewrite scalar_dict in He. inversion He as [|? ? [H1 H2] H3]; subst. apply IH; [apply scalar_dset; auto|apply scalar_dict; auto].
Qed.
Lemma scalar_bytes d : scalar_val (PDict d) -> exists b, to_bytes (json_dumps (PDict d)) = Ok b.
Proof. intros H. apply utf8_encode_scalar. apply scalar_dumps. auto. Qed.

(** ** C94: which keys sign *)
Lemma suits_fits a m : suits (alg_name a) m <->
  a <> Anone /\ alg_fits a m /\ has_private m = true /\ (forall h n e o, a = PS h -> m = KRSA n e o -> (digest_size h + 2 <= byte_len n)%nat).
Proof.
  split.
  - intros H. inversion H as [s h Hin|n e p h Hin|n e p h Hin Hl|c x y d h Hin]; subst.
    + apply hs_in in Hin. subst. repeat split; try discriminate.
    + apply rs_in in Hin. subst. repeat split; try discriminate.
    + apply ps_in in Hin. subst. repeat split; try discriminate. intros h0 n0 e0 o0 E1 E2. injection E1 as <-. injection E2 as <- _ _. auto.
    + apply es_in in Hin as [-> ->]. repeat split; try discriminate.
  - intros (Ha & F & Hp & Hl). destruct a as [|h|h|h|h]; [congruence| | | |]; destruct m as [s|n e o|c x y o]; try (exfalso; exact F);
      try (destruct o as [k|]; [|discriminate Hp]).
    + eapply suits_hs. apply hs_in. reflexivity.
    + eapply suits_rs. apply rs_in. reflexivity.
    + eapply suits_es. apply es_in. split; [reflexivity|exact F].
    + eapply suits_ps; [apply ps_in; reflexivity|]. eapply Hl; eauto.
Qed.
Lemma mat_sign_total C rand a m data : signs_always C m -> a <> Anone -> alg_fits a m ->
  ((exists sig, mat_sign C rand m data (alg_hash a) (alg_padding a) = Ok sig) <-> suits (alg_name a) m).
Proof.
  intros Hs Ha F. rewrite suits_fits. split.
  - intros [sig H]. split; [auto|]. split; [auto|]. destruct a as [|h|h|h|h]; [congruence| | | |]; destruct m as [s|n e o|c x y o]; try (exfalso; exact F);
      cbn [mat_sign alg_hash alg_padding padding_fits] in H.
    + split; [reflexivity|]. discriminate.
    + destruct o as [k|]; [|discriminate]. split; [reflexivity|]. discriminate.
    + destruct o as [k|]; [|discriminate]. split; [reflexivity|]. discriminate.
    + destruct o as [k|]; [|discriminate]. split; [reflexivity|]. intros h0 n0 e0 o0 E1 E2. injection E1 as <-. injection E2 as <- _ _.
      destruct (Nat.leb _ _) eqn:L; [|discriminate]. apply Nat.leb_le in L. auto.
  - intros (_ & _ & Hp & Hl). destruct a as [|h|h|h|h]; [congruence| | | |]; destruct m as [s|n e o|c x y o]; try (exfalso; exact F);
      cbn [mat_sign alg_hash alg_padding padding_fits]; try (destruct o as [k|]; [|discriminate Hp]).
    + eauto.
    + eapply Hs; reflexivity.
    + eauto.
    + replace (Nat.leb _ _) with true by (symmetry; apply Nat.leb_le; eapply Hl; eauto). eapply Hs; reflexivity.
Qed.
Lemma p_signing C rand d h alg payload k : constructible C k -> NoDup (keys d) -> JsonWebSignatureHeader (PDict d) = Ok h ->
  lookup (lit "alg") d = Some (PStr alg) -> scalar_val (PDict d) -> signs_always C (jmat k) ->
  ((exists token, serialize C rand {| jheader := h; jpayload := payload |} (Some k) = Ok token) <->
   key_permits k d /\ (alg = lit "none" \/ suits alg (jmat k))).
Proof.
  intros Hk Hn Hh Ha Hsc Hs. pose proof Hh as Hh'. apply header_iff in Hh' as (_ & Hd & Hl). rewrite Hl in Ha. injection Ha as <-.
  split.
  - intros [token Ht]. destruct (serialize_ok _ _ _ _ _ _ _ Hk Hn Hh Ht) as (Hp & hb & _ & Hc). cbv zeta in Hc. split; [auto|].
    destruct Hc as [[-> _]|(Hna & F & sig & Hsig & _)]; [left; reflexivity|right]. eapply mat_sign_total; eauto.
  - intros [Hp Hal]. unfold serialize. cbn [jheader jpayload]. rewrite (proj2 (validate_key_iff k d h Hn Hh) Hp). cbn [rbind].
    destruct (scalar_bytes (hdict h)) as [hb ->]; [rewrite Hd; apply scalar_filter; auto|]. cbn [rbind].
    set (m := base64url_encode hb ++ 46 :: base64url_encode payload).
    destruct Hal as [Hal|Hal].
    + apply alg_none in Hal. rewrite Hal. cbn [alg_sign rbind]. eauto.
    + pose proof (proj1 (suits_fits _ _) Hal) as (Hna & F & _).
      assert (Hv : alg_validate_key (halg h) (Some k) = Ok k).
      { apply (alg_validate_key_ok C); auto. split; [auto|]. split; [|auto]. destruct Hp as (Hp & _). intros Ht. apply true_spec in Ht. rewrite (Hp Ht). unfold dget. rewrite Hl. auto. }
      destruct (proj2 (mat_sign_total C rand (halg h) (jmat k) m Hs Hna F) Hal) as [sig Hsig].
      exists (m ++ 46 :: base64url_encode sig). unfold alg_sign. destruct (halg h); [congruence| | | |]; rewrite Hv; cbn [rbind]; rewrite Hsig; reflexivity.
Qed.

(** ** C95: the hook *)
Lemma suits_name alg m : suits alg m -> In (skipn 2 alg) (map lit ["256"; "384"; "512"]%string) /\ In alg registered /\ scalar_str alg /\ alg <> lit "none".
Proof.
  intros H. assert (Hin : In alg (map fst hs_names ++ map fst rs_names ++ map fst ps_names ++ map fst es_names)).
  { rewrite !in_app_iff. destruct H as [s h Hin|n e p h Hin|n e p h Hin _|c x y d h Hin]; apply (in_map fst) in Hin; auto. }
  split; [|split; [right; exact Hin|]].
  - clear H. cbn in Hin. repeat (destruct Hin as [<-|Hin]; [apply ins_In; reflexivity|]). destruct Hin.
  - clear H. cbn in Hin. repeat (destruct Hin as [<-|Hin]; [split; [slit|discriminate]|]). destruct Hin.
Qed.
Lemma timestamp_quick a b off life : (off <= a)%Z -> (a <= b)%Z -> (b <= a + (life - 1) * 1000000)%Z ->
  (utcnow_timestamp a off <= utcnow_timestamp b off < utcnow_timestamp a off + life)%Z.
Proof.
  intros H1 H2 H3. unfold utcnow_timestamp. rewrite !Z.quot_div_nonneg by lia. lia.
Qed.
Section WithEnv.
Variable E : env.

Lemma hook_claims h c now ah info k : NoDup (keys info) -> lookup k (dupdate (base_claims h c now ah) info) =
  match lookup k info with Some v => Some v | None => lookup k (base_claims h c now ah) end.
Proof. intros Hi. rewrite lookup_dupdate, lookup_rev by auto. reflexivity. Qed.
Lemma hook_claims_met h c now ah info n : user_claims info -> (now <= n < now + cf_id_token_lifespan (hk_config h))%Z ->
  claims_met n (dupdate (base_claims h c now ah) info).
Proof.
  intros (Hi & _ & Hsub & Hno) Hn.
  assert (Hk : forall k, In k token_claims -> lookup k (dupdate (base_claims h c now ah) info) = lookup k (base_claims h c now ah)).
  { intros k Hin. rewrite hook_claims by auto. replace (lookup k info) with (@None pyval); [reflexivity|]. symmetry. apply lookup_None. auto. }
  assert (Ht : forall k, ins (lit k) token_claims = true -> lookup (lit k) (dupdate (base_claims h c now ah) info) = lookup (lit k) (base_claims h c now ah)).
  { intros k Hin. apply Hk. apply ins_In. auto. }
  split; [|split; [|split; [|split; [|split; [|split]]]]].
  - intros v Hv _. rewrite Ht in Hv by reflexivity. injection Hv as <-. left. eauto.
  - intros _. rewrite Ht by reflexivity. eexists. split; [reflexivity|]. lia.
  - intros _. rewrite Ht by reflexivity. eexists. split; [reflexivity|]. lia.
  - intros Hv. exfalso. apply Hv. unfold dget. rewrite Ht by reflexivity. constructor.
  - intros v Hv. rewrite Ht in Hv by reflexivity. injection Hv as <-. eauto.
  - intros v Hv. rewrite Ht in Hv by reflexivity. discriminate.
  - intros v Hv. rewrite hook_claims in Hv by auto. destruct (lookup (lit "sub") info) eqn:Es; [|discriminate]. injection Hv as <-. apply Hsub. auto.
Qed.
Lemma hook_IDToken h c now ah info n : user_claims info -> (now <= n < now + cf_id_token_lifespan (hk_config h))%Z ->
  IDToken n (PDict (dupdate (base_claims h c now ah) info)) PNone = Ok (without_none (dupdate (base_claims h c now ah) info)).
Proof.
  intros Hu Hn. pose proof (hook_claims_met h c now ah info n Hu Hn) as Hm. apply default_iff in Hm.
  assert (Hm0 : dget (lit "max_age") (dupdate (base_claims h c now ah) info) = PNone).
  { destruct Hu as (Hi & _ & _ & Hno). unfold dget. rewrite hook_claims by auto.
    replace (lookup (lit "max_age") info) with (@None pyval); [reflexivity|]. symmetry. apply lookup_None. apply Hno. apply ins_In. reflexivity. }
  unfold IDToken, claims_init. destruct (dupdate (base_claims h c now ah) info) as [|kv cl] eqn:Ec.
  { exfalso. assert (Hl : lookup (lit "aud") (dupdate (base_claims h c now ah) info) <> None).
    { destruct Hu as (Hi & _). rewrite hook_claims by auto. destruct (lookup (lit "aud") info); discriminate. }
    rewrite Ec in Hl. apply Hl. reflexivity. }
  rewrite Hm. cbn [rbind]. unfold validate_auth_time. rewrite Hm0. cbn [truthy is_none negb andb raise_if rbind]. change (validate_nonce PNone (kv :: cl)) with (@Ok unit tt). cbn [rbind].
  f_equal. apply FullDict_without.
Qed.

Lemma id_token_forward h token scope c u a tr x : exec (generate_id_token E h token scope c u) tr x -> no_raise tr ->
  hashes E -> hook_served E h tr -> quick (cf_id_token_lifespan (hk_config h)) tr -> scalar_str (cl_id c) ->
  lookup (lit "access_token") token = Some (PStr a) -> scalar_str a ->
  exists t, x = V t /\ scalar_str t.
Proof.
  intros H Hn Hh (S1 & S2 & S3) Hq Hc Ha Hsa. unfold generate_id_token in H.
  apply call_forward in H as ([key alg] & t1 & -> & H & Hn1); [|auto]. apply call_forward in H as (info & t2 & -> & H & Hn2); [|auto].
  apply call_forward in H as ([utc off] & t3 & -> & H & Hn3); [|auto]. cbn [observe] in *.
  destruct (S1 _ (or_introl eq_refl)) as (k & al & Ek & Hk & Hb & Hs & Hsu & i & Hi & Hi0 & Hi1 & Hp). injection Ek as -> ->.
  destruct (S2 _ _ _ (or_intror (or_introl eq_refl))) as (info' & Ei & Hu). injection Ei as ->.
  rewrite Ha, ret_forward in H.
  destruct (suits_name _ _ Hsu) as (Hbits & Hreg & Hal & Hnone).
  assert (Hah : exists ah, create_half_hash (e_hashlib E) a al = Ok ah /\ scalar_str ah).
  { apply in_map_iff in Hbits as (n & Hn0 & Hin). destruct (Hh n Hin) as (f & Hf & Hfb). rewrite Hn0 in Hf.
    destruct (utf8_encode_scalar _ Hsa) as [b Hbb]. apply utf8_rfc in Hbb. destruct (p_half_hash (e_hashlib E) a al) as [_ Hhh].
    destruct (Hhh f b Hf Hbb (Hfb b)) as (s & Hsx & -> & _). eexists. split; [exact Hsx|].
    assert (Hok : bytes_ok (firstn (Nat.div (length (f b)) 2) (f b))).
    { unfold bytes_ok in *. specialize (Hfb b). rewrite Forall_forall in *. intros y Hy. apply Hfb.
      rewrite <- (firstn_skipn (Nat.div (length (f b)) 2) (f b)). apply in_or_app; auto. }
    apply scalar_small. destruct (p_base64url _ Hok) as (_ & <- & _). apply url_ascii. auto. }
  destruct Hah as (ah & Hah & Hsah). rewrite Hah in H. cbn [lift] in H. rewrite ret_forward in H. cbv zeta in H.
  apply call_forward in H as ([utc1 off1] & t4 & -> & H & Hn4); [|auto]. cbn [observe] in *.
  fold (base_claims h c (utcnow_timestamp utc off) ah) in H. set (claims := dupdate _ info') in *.
  destruct (Hq [OGetKeyInfo (hk_adapter h) (V (k, al)); OGetUserinfo (hk_adapter h) u (words scope) (V info')] utc off [] utc1 off1 t4 eq_refl) as (-> & Q1 & Q2 & Q3).
  pose proof (timestamp_quick _ _ _ _ Q1 Q2 Q3) as T1.
  pose proof (hook_IDToken h c _ ah info' _ Hu T1) as HID. fold claims in HID. rewrite HID in H. cbn [lift] in H. rewrite ret_forward in H.
  rewrite Hi, ret_forward in H.
  apply call_forward in H as ([utc2 off2] & t5 & -> & H & Hn5); [|auto]. cbn [observe] in *.
  destruct (Hq [OGetKeyInfo (hk_adapter h) (V (k, al)); OGetUserinfo (hk_adapter h) u (words scope) (V info')] utc off [ONow (V (utc1, off))] utc2 off2 t5 eq_refl) as (-> & Q4 & Q5 & Q6).
  pose proof (timestamp_quick _ _ _ _ Q4 Q5 Q6) as T2.
  fold (id_header al (PStr i)) in H.
  assert (Hwc : NoDup (keys claims)). { apply dupdate_NoDup. apply (json_wf_NoDup (base_claims h c (utcnow_timestamp utc off) ah)). reflexivity. }
  assert (Hhd : exists hd, JsonWebSignatureHeader (PDict (id_header al (PStr i))) = Ok hd).
  { pose proof Hreg as Hreg'. apply registered_spec in Hreg' as [aa ->]. exists {| hdict := full (id_header (alg_name aa) (PStr i)); halg := aa |}. apply header_iff.
    split; [|split; reflexivity]. split; [exists (alg_name aa); split; [reflexivity|auto]|]. split.
    - intros name v [<-|[<-|[<-|[]]]] Hv; [| |discriminate].
      + injection Hv as <-. eauto.
      + injection Hv as <-. eexists. split; [reflexivity|discriminate].
    - intros v Hv. discriminate. }
  destruct Hhd as [hd Hhd].
  assert (Hsc : scalar_val (PDict claims)).
  { apply scalar_dupdate; [|apply Hu]. unfold base_claims. apply scalar_dict. repeat (constructor; [split; [cbn [fst]; slit|cbn [snd scalar_val]; auto]|]). constructor. }
  assert (Htk : exists pl, JsonWebToken (utcnow_timestamp utc2 off) (PDict (without_none claims)) (PDict (id_header al (PStr i))) =
     Ok {| tclaims := without_none claims; tjws := {| jheader := hd; jpayload := pl |} |} /\ bytes_ok pl).
  { unfold JsonWebToken. rewrite Hhd. cbn [rbind].
    replace (JsonWebTokenClaims _ _ _) with (Ok (without_none claims)).
    2:{ symmetry. apply p_claims_iff. exists (without_none claims). split; [auto|]. split; [|split].
        - intros En. assert (Hl : lookup (lit "aud") (without_none claims) = Some (PStr (cl_id c))).
          { rewrite without_none_full, lookup_full by auto. unfold claims. destruct Hu as (Hi' & _ & _ & Hno). rewrite hook_claims by auto.
            replace (lookup (lit "aud") info') with (@None pyval); [reflexivity|]. symmetry. apply lookup_None. apply Hno. apply ins_In. reflexivity. }
          rewrite En in Hl. discriminate.
        - rewrite without_none_full. apply claims_met_full; [auto|]. apply hook_claims_met; auto.
        - rewrite !without_none_full, full_idem. auto. }
    cbn [rbind]. destruct (scalar_bytes (without_none claims)) as [pl Hpl]; [apply scalar_filter; auto|]. rewrite Hpl. exists pl. split; [reflexivity|].
    apply utf8_encode_ok in Hpl. tauto. }
  destruct Htk as (pl & Htk & Hpl). rewrite Htk in H. cbn [lift] in H. rewrite ret_forward in H.
  apply call_forward in H as (rand & t6 & -> & H & Hn6); [|auto]. apply exec_Ret in H as [-> ->].
  destruct (proj2 (p_signing (e_crypto E) rand (id_header al (PStr i)) hd al pl k Hk (json_wf_NoDup (id_header al (PStr i)) eq_refl) Hhd eq_refl
    ltac:(apply scalar_dict; repeat (constructor; [split; [cbn [fst]; slit|cbn [snd scalar_val]; first [exact Hal|exact Hi1|slit]]|]); constructor) Hs)) as [token' Ht].
  { split; [|auto]. exact Hp. }
  exists token'. unfold jwt_encode. cbn [tjws]. rewrite Ht. cbn [rbind lift].
  pose proof (serialize_ascii _ _ _ _ _ _ _ Hk (json_wf_NoDup (id_header al (PStr i)) eq_refl) Hb Hpl Hhd Ht) as Hasc.
  split; [|apply scalar_small; auto]. f_equal. unfold to_string. rewrite (utf8_decode_ascii _ Hasc). reflexivity.
Qed.

(** The exchange up to the hooks *)
Lemma code_run p hs r tr x i c code uri v u : (forall b, bytes_ok (e_sha256 E b)) ->
  exec (token_endpoint E p hs r) tr x -> no_raise tr ->
  exchange_request p r i c code uri v ->
  finds_client i c tr -> (forall y, In (OGetCode code (V y)) tr -> exists ac, y = Some ac /\ matching_code E c uri v tr ac /\ finds_user (ac_user ac) u tr) ->
  exists ac a rt pre s2 w, tr = pre ++ s2 ++ [ODeleteCode code (V tt)] /\ In (OGetCode code (V (Some ac))) tr /\
    In (OCreateAT c (OwnUser u) (ac_scopes ac) (V a)) tr /\ created_refresh c (OwnUser u) (ac_scopes ac) rt tr /\
    exec (run_token_hooks E (hk_response hs) (create_token a (cf_token_lifespan (pv_config p)) rt (ac_scopes ac)) c u) s2 w /\ no_raise s2 /\
    (forall d z, w = V d -> JSONResponse 200 token_headers (PDict d) = V z -> x = V z).
Proof.
  intros Hb H Hn (Hg & Hgr & Hp & Hgt & D1 & D2 & D3 & N1 & N2 & N3 & Huri) F1 F2.
  apply token_exec in H as (y & H & Hx).
  apply body_forward with (g := GCode) (i := i) (c := c) in H as (tr1 & z & -> & Hn1 & H & Hy); auto; [|left; reflexivity].
  cbn [grant_token] in H. apply code_token_exec in H as (t1 & w & Hw & [(Hc & _)|(code' & q & Hc & -> & Hz)]).
  { exfalso. unfold param in Hc. rewrite lookup_dremove_other in Hc by discriminate. unfold data_has in D1. congruence. }
  destruct q as [[]|e]; [|exfalso; eapply raise_absurd; [exact Hn1|apply in_app_iff; right; left; reflexivity|reflexivity]]. subst z.
  apply no_raise_app in Hn1 as [Hn1 _].
  assert (Hall : forall o, In o t1 -> In o (OFindClient i (V (Some c)) :: t1 ++ [ODeleteCode code' (V tt)])) by (intros; right; apply in_app_iff; auto).
  unfold code_exchange in Hw.
  replace (validate_code_request (dremove (lit "grant_type") (rq_data r))) with (V (code, uri, v) : res (str * str * str)) in Hw.
  2:{ symmetry. apply validate_code_request_V. split; [|split]; apply data_arg; auto; discriminate. }
  rewrite ret_forward in Hw. cbv beta iota in Hw.
  apply call_forward in Hw as (oc & t2 & -> & Hw & Hn2); [|auto]. cbn [observe] in *.
  destruct (F2 oc) as (ac & -> & (Hr & Hcl & Hpk & T & Hexp & F4) & F3); [apply Hall; left; reflexivity|].
  assert (Hvac : exists off now t3, t2 = ONow (V (now, off)) :: t3 /\ exec (do ou <- call (FindUser (ac_user ac)) ;;
      match ou with
      | None => Ret (oraise InvalidRequest (lit "No user found for this code.") None)
      | Some u => do at_ <- call (CreateAT c (OwnUser u) (ac_scopes ac)) ;;
          do rt <- maybe_refresh c (OwnUser u) (ac_scopes ac) ;;
          run_token_hooks E (hk_response hs) (create_token at_ (cf_token_lifespan (pv_config p)) rt (ac_scopes ac)) c u
      end) t3 w /\ no_raise t3).
  { unfold validate_authorization_code in Hw.
    replace (ins uri (cl_redirects c)) with true in Hw by (symmetry; apply ins_In; auto).
    rewrite Hcl, Hr, !eqs_refl in Hw. cbn [negb] in Hw.
    destruct (pkce_verifies E ac v Hb Hpk) as (f & Ef & Hf). rewrite Ef, Hf in Hw. cbn [lift] in Hw. rewrite ret_forward in Hw. cbn [negb] in Hw.
    apply exec_pbind in Hw as [([] & s1 & s2 & -> & H1 & Hw)|(e & -> & H1)].
    - apply no_raise_app in Hn2 as [Hn2 Hn3]. apply call_forward in H1 as ([now off] & s3 & -> & H1 & _); [|auto].
      assert (Hlt : (now < T)%Z) by (apply (F4 now off), Hall; right; left; reflexivity).
      rewrite Hexp in H1. cbn [expired lift] in H1. replace (T <=? now)%Z with false in H1 by (symmetry; apply Z.leb_gt; auto).
      rewrite ret_forward in H1. apply exec_Ret in H1 as [-> _]. exists off, now, s2. auto.
    - exfalso. apply call_forward in H1 as ([now off] & s3 & -> & H1 & _); [|auto].
      assert (Hlt : (now < T)%Z) by (apply (F4 now off), Hall; right; left; reflexivity).
      rewrite Hexp in H1. cbn [expired lift] in H1. replace (T <=? now)%Z with false in H1 by (symmetry; apply Z.leb_gt; auto).
      rewrite ret_forward in H1. apply exec_Ret in H1 as [_ H1]. discriminate. }
  clear Hw Hn2. destruct Hvac as (off & now & t3 & -> & Hw & Hn2).
  apply call_forward in Hw as (ou & t4 & -> & Hw & Hn3); [|auto]. cbn [observe] in *.
  assert (Eou : V ou = V (Some u)) by (apply F3, Hall; right; right; left; reflexivity). injection Eou as ->.
  apply call_forward in Hw as (a & t5 & -> & Hw & Hn4); [|auto]. cbn [observe] in *.
  apply refresh_forward in Hw as (rt & s1 & s2 & -> & Hw & Hn9 & Hrt); [|auto].
  set (tr := OFindClient i (V (Some c)) :: _) in *.
  assert (Hat : In (OCreateAT c (OwnUser u) (ac_scopes ac) (V a)) tr) by (apply Hall; simpl; auto 10).
  assert (Hcr : created_refresh c (OwnUser u) (ac_scopes ac) rt tr).
  { unfold created_refresh in *. destruct (ins _ _); [|auto]. apply Hall. do 4 right. apply in_app_iff. auto. }
  assert (code' = code). { unfold param in Hc. rewrite lookup_dremove_other in Hc by discriminate. unfold data_has in D1. congruence. } subst code'.
  exists ac, a, rt, (OFindClient i (V (Some c)) :: OGetCode code (V (Some ac)) :: ONow (V (now, off)) :: OFindUser (ac_user ac) (V (Some u)) :: OCreateAT c (OwnUser u) (ac_scopes ac) (V a) :: s1), s2, w.
  split; [unfold tr; cbn [app]; repeat rewrite <- app_assoc; reflexivity|]. split; [apply Hall; left; reflexivity|]. split; [auto|]. split; [auto|].
  split; [exact Hw|]. split; [auto|]. intros d z -> Hz. rewrite Hx, Hy, Hz. reflexivity.
Qed.

Lemma quick_sub life pre s post : quick life (pre ++ s ++ post) -> quick life s.
Proof.
  intros H t1 a oa t2 b ob t3 ->. apply (H (pre ++ t1) a oa t2 b ob (t3 ++ post)). repeat (rewrite <- app_assoc; cbn [app]). reflexivity.
Qed.
Lemma served_sub h s tr : (forall o, In o s -> In o tr) -> hook_served E h tr -> hook_served E h s.
Proof. intros H (H1 & H2 & H3). split; [|split; [|auto]]; intros; eauto. Qed.
Lemma hooks_forward c u a scope l : forall d tr x, exec (run_token_hooks E l d c u) tr x -> no_raise tr -> hashes E ->
  (forall h, In h l -> hook_served E h tr /\ quick (cf_id_token_lifespan (hk_config h)) tr) -> scalar_str (cl_id c) ->
  lookup (lit "scope") d = Some (PStr scope) -> lookup (lit "access_token") d = Some (PStr a) -> scalar_str a -> scalar_val (PDict d) ->
  exists d', x = V d' /\ scalar_val (PDict d') /\ (forall k, k <> lit "id_token" -> lookup k d' = lookup k d).
Proof.
  induction l as [|h l IH]; intros d tr x H Hn Hh Hl Hc Hs Ha Hsa Hd; simpl in H.
  - destruct H as [-> ->]. exists d. auto.
  - assert (Hcase : exists upd t1 t2, tr = t1 ++ t2 /\ no_raise t2 /\ exec (run_token_hooks E l (full_update d upd) c u) t2 x /\
        (upd = [] \/ exists t, upd = [(lit "id_token", PStr t)] /\ scalar_str t)).
    { unfold oidc_token_response in H. rewrite Hs in H. destruct (substr (lit "openid") scope).
      - destruct (Hl h (or_introl eq_refl)) as [Hsv Hqk].
        apply exec_pbind in H as [(upd & t1 & t2 & -> & H1 & H2)|(e & -> & H1)].
        + apply no_raise_app in Hn as [Hn1 Hn2]. exists upd, t1, t2. split; [auto|]. split; [auto|]. split; [auto|]. right.
          apply exec_pbind in H1 as [(t & t3 & t4 & -> & H3 & H4)|(e & ? & _)]; [|discriminate].
          apply exec_Ret in H4 as [-> H4]. injection H4 as ->. rewrite app_nil_r in *.
          destruct (id_token_forward h d scope c u a _ _ H3 Hn1 Hh) as (t' & Et & Hst); auto.
          * eapply served_sub; [|exact Hsv]. intros o Ho. apply in_app_iff. auto.
          * apply (quick_sub _ [] t3 t2). exact Hqk.
          * injection Et as ->. eauto.
        + exfalso. apply exec_pbind in H1 as [(t & t3 & t4 & -> & H3 & H4)|(e' & He & H3)].
          * apply exec_Ret in H4 as [_ H4]. discriminate.
          * destruct (id_token_forward h d scope c u a _ _ H3 Hn Hh) as (t' & Et & Hst); auto. discriminate.
      - apply exec_pbind in H as [(upd & t1 & t2 & -> & H1 & H2)|(e & -> & H1)].
        + apply exec_Ret in H1 as [-> H1]. injection H1 as ->. exists [], [], t2. auto.
        + apply exec_Ret in H1 as [_ H1]. discriminate. }
    destruct Hcase as (upd & t1 & t2 & -> & Hn2 & H2 & Hupd).
    assert (Hk : forall k, k <> lit "id_token" -> lookup k (full_update d upd) = lookup k d).
    { intros k Hk. destruct Hupd as [->|(t & -> & _)]; [reflexivity|]. unfold full_update, dupdate. cbn [fold_left fst snd]. apply lookup_dset_other. auto. }
    destruct (IH (full_update d upd) t2 x H2 Hn2 Hh) as (d' & -> & Hd' & Hk'); auto.
    + intros h' Hin. destruct (Hl h' (or_intror Hin)) as [H3 H4]. split.
      * eapply served_sub; [|exact H3]. intros o Ho. apply in_app_iff. auto.
      * rewrite <- (app_nil_r t2) in H4. apply (quick_sub _ t1 t2 []). exact H4.
    + rewrite Hk by discriminate. auto.
    + rewrite Hk by discriminate. auto.
    + destruct Hupd as [->|(t & -> & Ht)]; [exact Hd|]. unfold full_update, dupdate. cbn [fold_left fst snd]. apply scalar_dset; auto. slit.
    + exists d'. split; [auto|]. split; [auto|]. intros k Hne. rewrite Hk', Hk; auto.
Qed.
Lemma p_code_oidc p hs r tr x i c code uri v ac u : (forall b, bytes_ok (e_sha256 E b)) -> hashes E ->
  exec (token_endpoint E p hs r) tr x -> no_raise tr -> texts_ok tr -> hk_response hs <> [] ->
  exchange_request p r i c code uri v -> matching_code E c uri v tr ac -> ac_scopes ac <> [] -> scalar_str (cl_id c) ->
  finds_client i c tr -> finds_code code ac tr -> finds_user (ac_user ac) u tr ->
  (forall h, In h (hk_response hs) -> hook_served E h tr /\ quick (cf_id_token_lifespan (hk_config h)) tr) ->
  exists z a rt d, x = V z /\ In (OCreateAT c (OwnUser u) (ac_scopes ac) (V a)) tr /\ created_refresh c (OwnUser u) (ac_scopes ac) rt tr /\
    token_answer z a (cf_token_lifespan (pv_config p)) rt (ac_scopes ac) /\ json_body z d /\
    ((exists t, lookup (lit "id_token") d = Some (PStr t)) <-> exists s, In s (ac_scopes ac) /\ occurs (lit "openid") s).
Proof.
  intros Hb Hh H Hn Ht Hne Hq Hg Hsc Hc F1 F2 F3 Hhk.
  destruct (code_run p hs r tr x i c code uri v u Hb H Hn Hq F1) as (ac' & a & rt & pre & s2 & w & Htr & Hget & Hat & Hcr & Hw & Hn2 & Hx).
  { intros y Hy. apply F2 in Hy. injection Hy as ->. eauto. }
  apply F2 in Hget. injection Hget as ->.
  destruct (proj1 Ht _ _ _ _ Hat) as [Sa Ssc].
  assert (Hd0 : scalar_val (PDict (create_token a (cf_token_lifespan (pv_config p)) rt (ac_scopes ac)))).
  { apply scalar_dict. unfold create_token. pose proof (created_some _ _ _ _ _ Hcr) as Hrt.
    assert (Srt : match rt with Some t => scalar_str t | None => True end).
    { destruct rt as [t|]; [|auto]. destruct Hrt as [|(c1 & o1 & s1 & Hrt)]; [discriminate|]. eapply (proj2 Ht); eauto. }
    assert (Sun : scalar_str (unwords (ac_scopes ac))) by (apply scalar_join; [apply scalar_small; repeat constructor|auto]).
    destruct rt, (ac_scopes ac); cbn [pstr]; repeat (constructor; [split; [cbn [fst]; slit|cbn [snd scalar_val]; first [exact I|exact Sa|exact Srt|exact Sun|slit]]|]); constructor. }
  assert (Hs0 : lookup (lit "scope") (create_token a (cf_token_lifespan (pv_config p)) rt (ac_scopes ac)) = Some (PStr (unwords (ac_scopes ac)))).
  { rewrite create_token_scope. destruct (ac_scopes ac); [contradiction|auto]. }
  destruct (hooks_forward c u a (unwords (ac_scopes ac)) (hk_response hs) _ _ _ Hw Hn2 Hh) as (d & -> & Hd & Hk); auto.
  { intros h Hin. destruct (Hhk h Hin) as [H1 H2]. split.
    - eapply served_sub; [|exact H1]. intros o Ho. rewrite Htr. rewrite !in_app_iff. auto.
    - rewrite Htr in H2. eapply quick_sub. exact H2. }
  destruct (hooks_dict E _ _ a _ _ _ _ (create_token_dict a (cf_token_lifespan (pv_config p)) rt (ac_scopes ac)) Hw) as (Hwf & Hacc & _ & _).
  assert (Hz : exists z, JSONResponse 200 token_headers (PDict d) = V z).
  { unfold JSONResponse. destruct (scalar_bytes d Hd) as [b ->]. cbn. eauto. }
  destruct Hz as [z Hz]. rewrite (Hx d z eq_refl Hz) in *.
  apply json_response_V in Hz as (Hst & Hj & _); [|auto].
  exists z, a, rt, d. split; [auto|]. split; [auto|]. split; [auto|]. split; [|split; [auto|]].
  - split; [auto|]. exists d. split; [auto|]. rewrite !Hk by discriminate. unfold create_token, unwords. destruct rt, (ac_scopes ac); repeat split; auto.
  - rewrite <- (occurs_unwords (lit "openid") (ac_scopes ac)); [|intros Hin; apply inc_In in Hin; discriminate Hin|discriminate]. rewrite <- substr_spec.
    destruct (hooks_id _ _ _ _ _ _ _ _ Hw Hs0) as [H1 H2]. destruct (substr (lit "openid") (unwords (ac_scopes ac))).
    + destruct H2 as (h & t & dm & _ & _ & _ & _ & Hl & _); [auto|auto|]. split; [auto|eauto].
    + rewrite (H1 eq_refl), create_token_id. split; [intros [t Ht']; discriminate|discriminate].
Qed.
End WithEnv.
