(** The ID token of a code exchange: lemmas for C66-C68. *)
From Coq Require Import String Ascii List NArith ZArith Bool Lia.
From Verif Require Import Base BaseFacts Utf8 Utf8Facts SpecCodec SpecKey Json JsonFacts Url Webtools WebtoolsFacts Crypto Jwk Jws SpecJws JwsFacts Jwt SpecJwt JwtFacts Prog ProgFacts Http OAuth SpecOAuth OAuthFacts GrantFacts EndpointFacts RequestFacts AuthzFacts TokenFacts ResponseFacts IssueFacts.
Import ListNotations.
Open Scope N_scope.

(** ** Substrings *)
Lemma prefixb_spec a s : prefixb a s = true <-> exists y, s = a ++ y.
Proof.
  revert s. induction a as [|x a IH]; intros s; simpl; [split; [eauto|auto]|].
  destruct s as [|y s]; [split; [discriminate|intros [y H]; discriminate]|].
  rewrite andb_true_iff, N.eqb_eq, IH. split.
  - intros [-> [z ->]]. eauto.
  - intros [z H]. injection H as -> ->. eauto.
Qed.
Lemma substr_spec a s : substr a s = true <-> occurs a s.
Proof.
  unfold occurs. induction s as [|c s IH]; simpl; rewrite orb_true_iff, prefixb_spec.
  - split.
    + intros [[y H]|H]; [exists [], y; auto|discriminate].
    + intros (x & y & H). left. destruct x; [exists y; auto|discriminate].
  - rewrite IH. split.
    + intros [[y H]|(x & y & ->)]; [exists [], y; auto|exists (c :: x), y; auto].
    + intros (x & y & H). destruct x as [|d x]; [left; exists y; auto|]. injection H as -> ->. right. eauto.
Qed.
Lemma prefix_before_sep (a l t y : str) sep : ~ In sep a -> l ++ sep :: t = a ++ y -> exists z, l = a ++ z.
Proof.
  revert l. induction a as [|e a IHa]; intros l Hn H; [exists l; auto|]. destruct l as [|f l]; cbn [app] in H.
  - injection H as -> _. exfalso. apply Hn. left. auto.
  - injection H as -> H. destruct (IHa l (fun h => Hn (or_intror h)) H) as [z ->]. exists z. auto.
Qed.
Lemma occurs_app_sep a s t sep : ~ In sep a -> a <> [] -> occurs a (s ++ sep :: t) -> occurs a s \/ occurs a t.
Proof.
  intros Hn Hne (x & y & H). revert x H. induction s as [|c s IH]; intros x H; cbn [app] in H.
  - destruct x as [|d x]; [|injection H as -> ->; right; exists x, y; auto].
    destruct a as [|d a]; [congruence|]. injection H as -> _. exfalso. apply Hn. left. auto.
  - destruct x as [|d x]; cbn [app] in H.
    + (* a is a prefix of c :: s ++ sep :: t *)
      clear IH. left. destruct (prefix_before_sep a (c :: s) t y sep Hn H) as [z Hz]. exists [], z. auto.
    + injection H as -> H. destruct (IH x H) as [(x' & y' & ->)|Ho]; [left; exists (d :: x'), y'; auto|auto].
Qed.
Lemma occurs_unwords a l : ~ In 32 a -> a <> [] -> (occurs a (unwords l) <-> exists s, In s l /\ occurs a s).
Proof.
  intros Hn Hne. unfold unwords. split.
  - induction l as [|s l IH]; simpl.
    + intros (x & y & H). destruct x, a; try discriminate. congruence.
    + destruct l as [|s' l]; [intros H; exists s; auto|]. intros H. cbn [app] in H.
      apply occurs_app_sep in H as [H|H]; auto; [exists s; auto|]. destruct (IH H) as (s0 & H1 & H2). exists s0. auto.
  - intros (s & Hin & x & y & ->). induction l as [|s' l IH]; [destruct Hin|].
    destruct Hin as [->|Hin].
    + destruct l as [|s'' l]; simpl; [exists x, y; auto|]. exists x, (y ++ 32 :: join [32] (s'' :: l)). rewrite <- !app_assoc. auto.
    + destruct (IH Hin) as (x' & y' & H). destruct l as [|s'' l]; [destruct Hin|].
      exists (s' ++ 32 :: x'), y'. cbn [join] in *. rewrite H. rewrite <- app_assoc. auto.
Qed.
Lemma occurs_self a : occurs a a.
Proof. exists [], []. rewrite app_nil_r. auto. Qed.

Section WithEnv.
Variable E : env.

(** ** The hook *)
Definition base_claims (h : hook) (c : client) (now : Z) (at_hash : str) : pdict :=
  [(lit "iss", PStr (cf_issuer (hk_config h))); (lit "aud", PStr (cl_id c)); (lit "exp", PInt (now + cf_id_token_lifespan (hk_config h))%Z);
   (lit "iat", PInt now); (lit "at_hash", PStr at_hash)].
Definition id_header (alg : str) (kid : pyval) : pdict := [(lit "alg", PStr alg); (lit "typ", PStr (lit "JWT")); (lit "kid", kid)].
Lemma id_token_exec h token scope c u tr t : exec (generate_id_token E h token scope c u) tr (V t) ->
  exists key alg info utc off a at_hash utc1 off1 claims1 kid utc2 off2 tk rand,
    tr = [OGetKeyInfo (hk_adapter h) (V (key, alg)); OGetUserinfo (hk_adapter h) u (words scope) (V info); ONow (V (utc, off));
          ONow (V (utc1, off1)); ONow (V (utc2, off2)); OSignRand (V rand)] /\
    lookup (lit "access_token") token = Some (PStr a) /\ create_half_hash (e_hashlib E) a alg = Ok at_hash /\
    IDToken (utcnow_timestamp utc1 off1) (PDict (dupdate (base_claims h c (utcnow_timestamp utc off) at_hash) info)) PNone = Ok claims1 /\
    lookup (lit "kid") (jdata key) = Some kid /\
    JsonWebToken (utcnow_timestamp utc2 off2) (PDict claims1) (PDict (id_header alg kid)) = Ok tk /\
    jwt_encode (e_crypto E) rand tk (Some key) = Ok t.
Proof.
  unfold generate_id_token. intros H.
  apply exec_pbind in H as [([key alg] & t1 & t2 & -> & H1 & H)|(e & ? & _)]; [|discriminate]. apply exec_call in H1 as ->.
  apply exec_pbind in H as [(info & t3 & t4 & -> & H1 & H)|(e & ? & _)]; [|discriminate]. apply exec_call in H1 as ->.
  apply exec_pbind in H as [([utc off] & t5 & t6 & -> & H1 & H)|(e & ? & _)]; [|discriminate]. apply exec_call in H1 as ->.
  apply exec_pbind in H as [(a & t7 & t8 & -> & H1 & H)|(e & ? & _)]; [|discriminate]. apply exec_Ret in H1 as [-> H1].
  apply exec_pbind in H as [(ah & t9 & t10 & -> & H2 & H)|(e & ? & _)]; [|discriminate]. apply exec_Ret in H2 as [-> H2]. symmetry in H2. apply lift_V in H2.
  apply exec_pbind in H as [([utc1 off1] & t11 & t12 & -> & H3 & H)|(e & ? & _)]; [|discriminate]. apply exec_call in H3 as ->.
  apply exec_pbind in H as [(cl & t13 & t14 & -> & H4 & H)|(e & ? & _)]; [|discriminate]. apply exec_Ret in H4 as [-> H4]. symmetry in H4. apply lift_V in H4.
  apply exec_pbind in H as [(kid & t15 & t16 & -> & H5 & H)|(e & ? & _)]; [|discriminate]. apply exec_Ret in H5 as [-> H5].
  apply exec_pbind in H as [([utc2 off2] & t17 & t18 & -> & H6 & H)|(e & ? & _)]; [|discriminate]. apply exec_call in H6 as ->.
  apply exec_pbind in H as [(tk & t19 & t20 & -> & H7 & H)|(e & ? & _)]; [|discriminate]. apply exec_Ret in H7 as [-> H7]. symmetry in H7. apply lift_V in H7.
  apply exec_pbind in H as [(rand & t21 & t22 & -> & H8 & H)|(e & ? & _)]; [|discriminate]. apply exec_call in H8 as ->.
  apply exec_Ret in H as [-> H]. symmetry in H. apply lift_V in H.
  exists key, alg, info, utc, off, a, ah, utc1, off1, cl, kid, utc2, off2, tk, rand. split; [reflexivity|].
  split. { destruct (lookup (lit "access_token") token) as [[]|]; try discriminate. injection H1 as ->. auto. }
  split; [auto|]. split; [exact H4|]. split. { destruct (lookup (lit "kid") (jdata key)); [injection H5 as ->; auto|discriminate]. }
  auto.
Qed.
Lemma hooks_id l : forall d c u tr d' scope, exec (run_token_hooks E l d c u) tr (V d') -> lookup (lit "scope") d = Some (PStr scope) ->
  (substr (lit "openid") scope = false -> d' = d) /\
  (substr (lit "openid") scope = true -> l <> [] ->
     exists h t dm t1 t2 t3, In h l /\ lookup (lit "id_token") d' = Some (PStr t) /\ tr = t1 ++ t2 ++ t3 /\
       exec (generate_id_token E h dm scope c u) t2 (V t) /\ lookup (lit "access_token") dm = lookup (lit "access_token") d).
Proof.
  induction l as [|h l IH]; intros d c u tr d' scope H Hs; simpl in H.
  - destruct H as [-> H]. injection H as ->. split; [auto|congruence].
  - apply exec_pbind in H as [(upd & t1 & t2 & -> & H1 & H2)|(e & ? & _)]; [|discriminate].
    unfold oidc_token_response in H1. rewrite Hs in H1. destruct (substr (lit "openid") scope) eqn:Es.
    + split; [discriminate|]. intros _ _.
      apply exec_pbind in H1 as [(t & t3 & t4 & -> & H3 & H4)|(e & ? & _)]; [|discriminate]. apply exec_Ret in H4 as [-> H4]. injection H4 as ->.
      rewrite app_nil_r in *.
      assert (Hk : forall k, k <> lit "id_token" -> lookup k (full_update d [(lit "id_token", PStr t)]) = lookup k d).
      { intros k Hk. unfold full_update, dupdate. cbn [fold_left fst snd]. apply lookup_dset_other. auto. }
      destruct l as [|h' l].
      * simpl in H2. destruct H2 as [-> H2]. injection H2 as ->. exists h, t, d, [], t3, []. rewrite !app_nil_r. split; [left; auto|].
        split; [unfold full_update, dupdate; cbn [fold_left fst snd]; apply lookup_dset_same|]. auto.
      * destruct (IH _ _ _ _ _ scope H2) as [_ IH2]; [rewrite Hk; [auto|discriminate]|]. rewrite Es in IH2.
        destruct IH2 as (h2 & t5 & dm & u1 & u2 & u3 & Hin & Hl & -> & Hx & Ha); [auto|discriminate|].
        exists h2, t5, dm, (t3 ++ u1), u2, u3. split; [right; auto|]. split; [auto|]. split; [rewrite <- app_assoc; auto|]. split; [auto|].
        rewrite Ha. apply Hk. discriminate.
    + split; [|discriminate]. intros _. apply exec_Ret in H1 as [-> H1]. injection H1 as ->.
      destruct (IH _ _ _ _ _ scope H2) as [IH1 _]; [exact Hs|]. rewrite Es in IH1. apply IH1. auto.
Qed.

(** ** At the endpoint *)
Lemma create_token_scope a n rt sc : lookup (lit "scope") (create_token a n rt sc) = match sc with [] => None | _ => Some (PStr (unwords sc)) end.
Proof. unfold create_token. destruct rt, sc; reflexivity. Qed.
Lemma create_token_access a n rt sc : lookup (lit "access_token") (create_token a n rt sc) = Some (PStr a).
Proof. unfold create_token. destruct rt, sc; reflexivity. Qed.
Lemma create_token_id a n rt sc : lookup (lit "id_token") (create_token a n rt sc) = None.
Proof. unfold create_token. destruct rt, sc; reflexivity. Qed.
Lemma code_response p hs r tr x : exec (token_endpoint E p hs r) tr (V x) -> rs_status x = 200 ->
  data_has r "grant_type" (lit "authorization_code") ->
  exists i c code ac u a d rt t1 t2 t3, tr = t1 ++ t2 ++ t3 /\ authenticates r i c /\ In (OFindClient i (V (Some c))) t1 /\
    data_has r "code" code /\ In (OGetCode code (V (Some ac))) t1 /\ In (OFindUser (ac_user ac) (V (Some u))) t1 /\
    In (OCreateAT c (OwnUser u) (ac_scopes ac) (V a)) t1 /\ json_body x d /\ lookup (lit "access_token") d = Some (PStr a) /\
    exec (run_token_hooks E (hk_response hs) (create_token a (cf_token_lifespan (pv_config p)) rt (ac_scopes ac)) c u) t2 (V d).
Proof.
  intros H Hst Hgt. apply token_exec in H as (y & Hy & Hx). destruct y as [y|[e|e]]; [| |discriminate].
  2:{ exfalso. symmetry in Hx. unfold token_error in Hx. apply json_response_V in Hx as (Hs & _); [congruence|apply dump_wf]. }
  injection Hx as <-. apply token_body_exec in Hy. inversion Hy as [| | |g i c tr' y' Hg Hd Ha Hm Hin Hex E1 E2]. subst tr.
  pose proof (grant_type_code _ (data_gt _ _ _ Hd Hgt)) as ->. destruct y' as [d|]; [|discriminate].
  pose proof Hex as Hdict. apply grant_dict in Hdict as (a0 & ow & sc0 & _ & Hw & _). cbn [grant_token] in Hex.
  apply json_response_V in E2 as (Hs & Hj & Hh); [|auto].
  apply code_token_exec in Hex as (t1 & y & Hx & [(_ & _ & He)|(code & z & Hcode & -> & He)]); [discriminate|].
  destruct z as [[]|]; [|discriminate]. subst y.
  apply exchange_issues in Hx as [[_ [e He]] | (code' & uri & v & ac & u & t2 & Hck & Hi)]; [discriminate|].
  destruct Hck as (Hc & _ & _ & _ & _ & now & off & t & -> & _).
  destruct Hi as [(e & _ & He) | (a & [(e & _ & He & _) | (rt & t3 & t4 & -> & _ & Hx)])]; try discriminate.
  pose proof (hooks_dict E _ _ a _ _ _ _ (create_token_dict a (cf_token_lifespan (pv_config p)) rt (ac_scopes ac)) Hx) as (_ & Hacc & _).
  exists i, c, code', ac, u, a, d, rt, (OFindClient i (V (Some c)) :: OGetCode code' (V (Some ac)) :: ONow (V (now, off)) :: OFindUser (ac_user ac) (V (Some u)) :: OCreateAT c (OwnUser u) (ac_scopes ac) (V a) :: t3), t4, [ODeleteCode code (V tt)].
  split; [cbn [app]; repeat rewrite <- app_assoc; reflexivity|].
  apply arg_Some in Hc as [Hc _]. rewrite lookup_dremove_other in Hc by discriminate.
  split; [auto|]. split; [left; auto|]. split; [exact Hc|]. split; [right; left; auto|]. split; [right; right; right; left; auto|].
  split; [right; right; right; right; left; auto|]. auto.
Qed.

(** C66: what holds *)
Lemma p_id_token_when p hs r tr x : exec (token_endpoint E p hs r) tr (V x) -> rs_status x = 200 ->
  data_has r "grant_type" (lit "authorization_code") -> hk_response hs <> [] ->
  exists code ac d, data_has r "code" code /\ In (OGetCode code (V (Some ac))) tr /\ json_body x d /\
    ((exists t, lookup (lit "id_token") d = Some (PStr t)) <-> exists s, In s (ac_scopes ac) /\ occurs (lit "openid") s).
Proof.
  intros H Hst Hgt Hh. destruct (code_response _ _ _ _ _ H Hst Hgt) as (i & c & code & ac & u & a & d & rt & t1 & t2 & t3 & -> & Ha & _ & Hc & Hg & _ & _ & Hj & _ & Hx).
  exists code, ac, d. split; [auto|]. split; [apply in_app_iff; auto|]. split; [auto|].
  assert (Ho : forall l, occurs (lit "openid") (unwords l) <-> exists s, In s l /\ occurs (lit "openid") s).
  { intros l. apply occurs_unwords; [|discriminate]. intros Hin. apply inc_In in Hin. discriminate Hin. }
  pose proof (create_token_scope a (cf_token_lifespan (pv_config p)) rt (ac_scopes ac)) as Hsc.
  destruct (ac_scopes ac) as [|s0 sl] eqn:Eac.
  - exfalso. destruct (hk_response hs) as [|h l]; [congruence|]. simpl in Hx. apply exec_pbind in Hx as [(upd & u1 & u2 & -> & H1 & _)|(e & ? & _)]; [|discriminate].
    unfold oidc_token_response in H1. rewrite Hsc in H1. apply exec_Ret in H1 as [_ H1]. discriminate.
  - rewrite <- Eac in *. clear Eac. destruct (hooks_id _ _ _ _ _ _ _ Hx Hsc) as [H1 H2]. rewrite <- Ho, <- substr_spec.
    destruct (substr (lit "openid") (unwords (ac_scopes ac))).
    + destruct H2 as (h & t & dm & _ & _ & _ & _ & Hl & _); [auto|auto|]. split; [auto|eauto].
    + rewrite (H1 eq_refl), create_token_id. split; [intros [t Ht]; discriminate|discriminate].
Qed.
Lemma p_no_hook_no_id p hs r tr x : exec (token_endpoint E p hs r) tr (V x) -> rs_status x = 200 ->
  data_has r "grant_type" (lit "authorization_code") -> hk_response hs = [] ->
  exists d, json_body x d /\ lookup (lit "id_token") d = None.
Proof.
  intros H Hst Hgt Hh. destruct (code_response _ _ _ _ _ H Hst Hgt) as (i & c & code & ac & u & a & d & rt & t1 & t2 & t3 & -> & Ha & _ & Hc & Hg & _ & _ & Hj & _ & Hx).
  rewrite Hh in Hx. simpl in Hx. destruct Hx as [_ Hx]. injection Hx as ->. exists (create_token a (cf_token_lifespan (pv_config p)) rt (ac_scopes ac)).
  split; [auto|]. apply create_token_id.
Qed.

(** The empty scope *)
Lemma p_empty_scope_raises p hs r tr x c o a : exec (token_endpoint E p hs r) tr x -> In (OCreateAT c o [] (V a)) tr -> hk_response hs <> [] ->
  data_has r "grant_type" (lit "authorization_code") -> (forall o, In o tr -> raised o = None) -> x = X (Py KeyError).
Proof.
  intros H Hin Hh Hgt Hn. apply token_exec in H as (y & Hy & Hx). apply token_body_exec in Hy.
  destruct Hy as [e He Hk | g tr e Hg Hd H | g i' c' Hg Hd Ha Hm Hno | g i' c' tr z Hg Hd Ha Hm Hno H].
  - destruct Hin.
  - exfalso. apply authenticate_trace in H. rewrite Forall_forall in H. destruct (H _ Hin) as (i & w & Hw). discriminate.
  - exfalso. destruct Hin as [Hin|[]]. discriminate.
  - pose proof (grant_type_code _ (data_gt _ _ _ Hd Hgt)) as ->. cbn [grant_token] in H. destruct Hin as [Hin|Hin]; [discriminate|].
    apply code_token_exec in H as (t1 & y & Hex & [(_ & _ & ->)|(code & w & Hc & -> & ->)]); [auto|].
    assert (Hw : w = V tt). { specialize (Hn (ODeleteCode code w)). destruct w as [[]|e]; [auto|]. discriminate Hn. right. apply in_app_iff. right. left. auto. }
    subst w. apply in_app_iff in Hin as [Hin|[Hin|[]]]; [|discriminate].
    apply exchange_issues in Hex as [[Hq _] | (code' & uri & v & ac & u & t2 & Hck & Hi)].
    { exfalso. rewrite Forall_forall in Hq. apply (Hq _ Hin). }
    destruct Hck as (_ & _ & _ & _ & _ & now & off & t & -> & _). destruct Hin as [Hin|[Hin|[Hin|Hin]]]; try discriminate.
    destruct Hi as [(e & -> & He) | (a' & [(e & -> & He & _) | (rt & t3 & t4 & -> & Hrt & Hex)])].
    + destruct Hin as [Hin|[]]. injection Hin. intros; discriminate.
    + exfalso. specialize (Hn (OCreateRT c' (OwnUser u) (ac_scopes ac) (X e))). discriminate Hn. right. apply in_app_iff. left. right. right. right. right. left. auto.
    + assert (Hsc : ac_scopes ac = []).
      { destruct Hin as [Hin|Hin]; [injection Hin as _ _ -> _; auto|]. apply in_app_iff in Hin as [Hin|Hin].
        - destruct (ins _ _); [subst t3; destruct Hin as [Hin|[]]; discriminate|destruct Hrt as [-> _]; destruct Hin].
        - exfalso. apply token_hooks_trace in Hex. rewrite Forall_forall in Hex. apply (Hex _ Hin). }
      rewrite Hsc in Hex. destruct (hk_response hs) as [|h l]; [congruence|]. simpl in Hex.
      apply exec_pbind in Hex as [(upd & u1 & u2 & -> & H1 & _)|(e & -> & H1)].
      * unfold oidc_token_response in H1. rewrite create_token_scope in H1. apply exec_Ret in H1 as [_ H1]. discriminate.
      * unfold oidc_token_response in H1. rewrite create_token_scope in H1. apply exec_Ret in H1 as [_ H1]. injection H1 as ->. auto.
Qed.

(** C67 *)
Lemma IDToken_ok now c r : IDToken now (PDict c) PNone = Ok r -> r = without_none c.
Proof.
  unfold IDToken, claims_init. destruct c as [|kv c]; [discriminate|]. intros H. apply rbind_ok in H as ([] & _ & H). apply rbind_ok in H as ([] & _ & H).
  injection H as <-. apply FullDict_without.
Qed.
Lemma half_hash_ok hl a alg ah : create_half_hash hl a alg = Ok ah -> half_hash hl a alg ah.
Proof.
  intros H. destruct (p_half_hash hl a alg) as [H1 H2]. unfold half_hash.
  destruct (hl (lit "sha" ++ skipn 2 alg)) as [h|] eqn:Eh; [|rewrite (H1 eq_refl) in H; discriminate].
  assert (Hb : exists b, utf8_encode a = Ok b). { unfold create_half_hash in H. rewrite Eh in H. unfold to_bytes in H. destruct (utf8_encode a) as [b|]; [eauto|discriminate]. }
  destruct Hb as [b Hb]. apply utf8_rfc in Hb. exists h, b. split; [auto|]. split; [auto|]. intros Ho.
  destruct (H2 _ _ eq_refl Hb Ho) as (s & Hs & -> & _). congruence.
Qed.
Lemma json_wf_dupdate e : json_wf (PDict e) = true -> forall d, json_wf (PDict d) = true -> json_wf (PDict (dupdate d e)) = true.
Proof.
  cbn [json_wf]. rewrite andb_true_iff. intros [_ He] d. revert d. unfold dupdate. induction e as [|[k v] e IH]; intros d Hd; cbn [fold_left fst snd]; [auto|].
  simpl in He. apply andb_true_iff in He as [Hv He]. apply IH; [auto|]. apply json_wf_dset; auto.
Qed.
Lemma id_claims_ok h c now ah info : NoDup (keys info) ->
  id_claims (cf_issuer (hk_config h)) (cl_id c) ah now (cf_id_token_lifespan (hk_config h)) info (without_none (dupdate (base_claims h c now ah) info)).
Proof.
  intros Hi k. rewrite without_none_full, lookup_full.
  - rewrite lookup_dupdate, lookup_rev by auto. destruct (lookup k info) as [[]|]; auto. unfold base_claims. cbn [lookup].
    destruct (eqs k (lit "iss")); auto. destruct (eqs k (lit "aud")); auto. destruct (eqs k (lit "exp")); auto. destruct (eqs k (lit "iat")); auto. destruct (eqs k (lit "at_hash")); auto.
  - apply dupdate_NoDup. apply (json_wf_NoDup (base_claims h c now ah)). reflexivity.
Qed.
Lemma p_id_token_content h token scope c u tr t : exec (generate_id_token E h token scope c u) tr (V t) ->
  exists key alg info utc off utc2 off2 a at_hash claims,
    In (OGetKeyInfo (hk_adapter h) (V (key, alg))) tr /\ In (OGetUserinfo (hk_adapter h) u (words scope) (V info)) tr /\
    In (ONow (V (utc, off))) tr /\ In (ONow (V (utc2, off2))) tr /\
    lookup (lit "access_token") token = Some (PStr a) /\ half_hash (e_hashlib E) a alg at_hash /\
    (NoDup (keys info) -> id_claims (cf_issuer (hk_config h)) (cl_id c) at_hash (utcnow_timestamp utc off) (cf_id_token_lifespan (hk_config h)) info claims) /\
    (json_wf (PDict info) = true -> constructible (e_crypto E) key -> backend_correct (e_crypto E) (jmat key) ->
     forall k' now1 now2, constructible (e_crypto E) k' -> verifying_key key k' ->
       (utcnow_timestamp utc2 off2 <= now1)%Z -> (utcnow_timestamp utc2 off2 <= now2)%Z ->
       (forall z, lookup (lit "exp") claims = Some (PInt z) -> z = 0%Z \/ (now1 < z)%Z /\ (now2 < z)%Z) ->
       exists tk, jwt_decode_str (e_crypto E) now1 now2 t (Some k') (PStr alg) true PNone = Ok tk /\ tclaims tk = claims).
Proof.
  intros H. destruct (id_token_exec _ _ _ _ _ _ _ H) as (key & alg & info & utc & off & a & ah & utc1 & off1 & cl & kid & utc2 & off2 & tk & rand & -> & Ha & Hh & Hid & Hkid & Htk & Henc).
  pose proof (IDToken_ok _ _ _ Hid) as Hcl.
  exists key, alg, info, utc, off, utc2, off2, a, ah, cl. split; [left; auto|]. split; [right; left; auto|]. split; [right; right; left; auto|].
  split; [right; right; right; right; left; auto|]. split; [auto|]. split; [apply half_hash_ok; auto|]. split; [intros Hn; rewrite Hcl; apply id_claims_ok; auto|].
  intros Hw Hk Hb k' now1 now2 Hk' Hv L1 L2 Hexp.
  assert (Hwc : json_wf (PDict cl) = true). { rewrite Hcl, without_none_full. apply json_wf_full. apply json_wf_dupdate; [auto|reflexivity]. }
  assert (Hfull : without_none cl = cl) by (rewrite Hcl, !without_none_full; apply full_idem).
  unfold JsonWebToken in Htk. apply rbind_ok in Htk as (hd & Ehd & Htk). apply rbind_ok in Htk as (cc & Ecc & Htk).
  assert (Hne : cl <> []). { intros ->. discriminate. }
  assert (Hwd : json_wf (PDict (id_header alg kid)) = true).
  { apply header_iff in Ehd as ((_ & Ht & _) & _). destruct (Ht (lit "kid") kid) as (s & -> & _); [simpl; auto|reflexivity|]. reflexivity. }
  destruct (p_jwt_roundtrip (e_crypto E) rand (utcnow_timestamp utc2 off2) cl (id_header alg kid) key k' tk t now1 now2 (PStr alg) PNone) as (H1 & _ & H3); auto.
  - rewrite Hfull. auto.
  - unfold JsonWebToken. rewrite Ehd. cbn [rbind]. rewrite Ecc. cbn [rbind]. exact Htk.
  - intros o Ho. discriminate.
  - exists tk. split; [auto|]. rewrite H1. auto.
Qed.
Lemma p_id_token_response p hs r tr x : exec (token_endpoint E p hs r) tr (V x) -> rs_status x = 200 ->
  data_has r "grant_type" (lit "authorization_code") ->
  exists d, json_body x d /\ forall t, lookup (lit "id_token") d = Some (PStr t) ->
    exists i c code ac u a h key alg info utc off utc2 off2 at_hash claims,
      authenticates r i c /\ data_has r "code" code /\ In (OGetCode code (V (Some ac))) tr /\ In (OFindUser (ac_user ac) (V (Some u))) tr /\
      lookup (lit "access_token") d = Some (PStr a) /\ In h (hk_response hs) /\
      In (OGetKeyInfo (hk_adapter h) (V (key, alg))) tr /\
      (exists sc, In (OGetUserinfo (hk_adapter h) u sc (V info)) tr) /\
      In (ONow (V (utc, off))) tr /\ In (ONow (V (utc2, off2))) tr /\
      half_hash (e_hashlib E) a alg at_hash /\
      (NoDup (keys info) -> id_claims (cf_issuer (hk_config h)) (cl_id c) at_hash (utcnow_timestamp utc off) (cf_id_token_lifespan (hk_config h)) info claims) /\
      (json_wf (PDict info) = true -> constructible (e_crypto E) key -> backend_correct (e_crypto E) (jmat key) ->
       forall k' now1 now2, constructible (e_crypto E) k' -> verifying_key key k' ->
         (utcnow_timestamp utc2 off2 <= now1)%Z -> (utcnow_timestamp utc2 off2 <= now2)%Z ->
         (forall z, lookup (lit "exp") claims = Some (PInt z) -> z = 0%Z \/ (now1 < z)%Z /\ (now2 < z)%Z) ->
         exists tk, jwt_decode_str (e_crypto E) now1 now2 t (Some k') (PStr alg) true PNone = Ok tk /\ tclaims tk = claims).
Proof.
  intros H Hst Hgt. destruct (code_response _ _ _ _ _ H Hst Hgt) as (i & c & code & ac & u & a & d & rt & t1 & t2 & t3 & -> & Hau & _ & Hc & Hg & Hu & _ & Hj & Hacc & Hx).
  exists d. split; [auto|]. intros t Ht.
  pose proof (create_token_scope a (cf_token_lifespan (pv_config p)) rt (ac_scopes ac)) as Hsc.
  destruct (hk_response hs) as [|h0 l0] eqn:Ehs.
  { simpl in Hx. destruct Hx as [_ Hx]. injection Hx as ->. rewrite create_token_id in Ht. discriminate. }
  rewrite <- Ehs in *. assert (Hne : hk_response hs <> []) by congruence. 
  destruct (ac_scopes ac) as [|s0 sl] eqn:Eac.
  { exfalso. rewrite Ehs in Hx. simpl in Hx. apply exec_pbind in Hx as [(upd & u1 & u2 & -> & H1 & _)|(e & ? & _)]; [|discriminate].
    unfold oidc_token_response in H1. rewrite Hsc in H1. apply exec_Ret in H1 as [_ H1]. discriminate. }
  rewrite <- Eac in *. destruct (hooks_id _ _ _ _ _ _ _ Hx Hsc) as [H1 H2].
  destruct (substr (lit "openid") (unwords (ac_scopes ac))); [|rewrite (H1 eq_refl), create_token_id in Ht; discriminate].
  destruct H2 as (h & t' & dm & u1 & u2 & u3 & Hin & Hl & -> & Hgen & Hdm); [auto|auto|].
  assert (t' = t) by congruence. subst t'.
  destruct (p_id_token_content _ _ _ _ _ _ _ Hgen) as (key & alg & info & utc & off & utc2 & off2 & a' & ah & claims & I1 & I2 & I3 & I4 & Ha & Hh & Hcl & Hver).
  rewrite Hdm, create_token_access in Ha. injection Ha as <-.
  assert (Hinc : forall o, In o u2 -> In o (t1 ++ (u1 ++ u2 ++ u3) ++ t3)). { intros o Ho. rewrite !in_app_iff. auto. }
  exists i, c, code, ac, u, a, h, key, alg, info, utc, off, utc2, off2, ah, claims.
  split; [auto|]. split; [auto|]. split; [apply in_app_iff; auto|]. split; [apply in_app_iff; auto|].
  split; [auto|]. split; [auto|]. split; [auto|]. split; [eauto|]. split; [auto|]. split; [auto|]. split; [auto|]. auto.
Qed.

(** C68: the nonce of the request is saved with the code, and that is all. *)
Lemma p_nonce_saved p hs r tr x code ad c u y : exec (authorization_endpoint E p hs r) tr x -> In (OSaveCode code ad c u y) tr -> made r ->
  (hk_request hs <> [] -> ad_nonce ad = lookup (lit "nonce") (rq_data r)) /\ (hk_request hs = [] -> ad_nonce ad = None).
Proof.
  intros H Hin Hm. destruct (saved_ad _ _ _ _ _ _ _ _ _ _ _ H Hin) as ((_ & _ & _ & _ & _ & _ & _ & Hn) & _).
  rewrite Hn. unfold nonce_of. destruct (hk_request hs); split; try congruence. intros _. unfold oidc_authorization_request, arg.
  rewrite lookup_dremove_other by discriminate. destruct (lookup (lit "nonce") (rq_data r)) as [[|]|] eqn:En; auto.
  destruct (made_nonblank _ _ Hm En).
Qed.
Lemma p_nonce_lost p hs r tr x : exec (token_endpoint E p hs r) tr (V x) -> rs_status x = 200 ->
  data_has r "grant_type" (lit "authorization_code") ->
  (forall aid u sc info, In (OGetUserinfo aid u sc (V info)) tr -> json_wf (PDict info) = true /\ lookup (lit "nonce") info = None) ->
  exists d, json_body x d /\ forall t, lookup (lit "id_token") d = Some (PStr t) ->
    exists aid key alg utc off claims, In (OGetKeyInfo aid (V (key, alg))) tr /\ In (ONow (V (utc, off))) tr /\ lookup (lit "nonce") claims = None /\
      (constructible (e_crypto E) key -> backend_correct (e_crypto E) (jmat key) ->
       forall k' now1 now2, constructible (e_crypto E) k' -> verifying_key key k' ->
         (utcnow_timestamp utc off <= now1)%Z -> (utcnow_timestamp utc off <= now2)%Z ->
         (forall z, lookup (lit "exp") claims = Some (PInt z) -> z = 0%Z \/ (now1 < z)%Z /\ (now2 < z)%Z) ->
         exists tk, jwt_decode_str (e_crypto E) now1 now2 t (Some k') (PStr alg) true PNone = Ok tk /\ tclaims tk = claims).
Proof.
  intros H Hst Hgt Hi. destruct (p_id_token_response _ _ _ _ _ H Hst Hgt) as (d & Hj & Hd). exists d. split; [auto|]. intros t Ht.
  destruct (Hd t Ht) as (i & c & code & ac & u & a & h & key & alg & info & utc & off & utc2 & off2 & ah & claims & _ & _ & _ & _ & _ & _ & Hk & (sc & Hu) & _ & Hn2 & _ & Hcl & Hver).
  destruct (Hi _ _ _ _ Hu) as [Hw Hno]. exists (hk_adapter h), key, alg, utc2, off2, claims. split; [auto|]. split; [auto|].
  split. { rewrite (Hcl (json_wf_NoDup _ Hw) (lit "nonce")), Hno. reflexivity. }
  intros H1 H2. apply Hver; auto.
Qed.
End WithEnv.

(** C65: what [add_hook] does to the table *)
Lemma p_add_hook p k hs : let n := length (filter (fun g => isinstance g k) (pv_grants p)) in
  let own := repeat {| hk_adapter := pv_adapter p; hk_config := pv_config p |} n in
  hk_request (add_hook p k hs) = hk_request hs ++ own /\ hk_response (add_hook p k hs) = hk_response hs ++ own.
Proof.
  cbv zeta. unfold add_hook. revert hs. induction (pv_grants p) as [|g l IH]; intros hs; simpl; [rewrite !app_nil_r; auto|].
  destruct (isinstance g k); simpl; [|apply IH]. destruct (IH {| hk_request := hk_request hs ++ [{| hk_adapter := pv_adapter p; hk_config := pv_config p |}];
      hk_response := hk_response hs ++ [{| hk_adapter := pv_adapter p; hk_config := pv_config p |}] |}) as [H1 H2].
  rewrite H1, H2. simpl. rewrite <- !app_assoc. auto.
Qed.
