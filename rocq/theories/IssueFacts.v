(** More about the token and revocation endpoints: lemmas for C56, C59-C63 and C70. *)
From Coq Require Import String Ascii List NArith ZArith Bool Lia.
From Verif Require Import Base BaseFacts Utf8 Utf8Facts SpecCodec Json JsonFacts Url Webtools WebtoolsFacts Crypto Jwk Jws Jwt Prog ProgFacts Http OAuth SpecOAuth OAuthFacts GrantFacts EndpointFacts RequestFacts AuthzFacts TokenFacts ResponseFacts.
Import ListNotations.
Open Scope N_scope.

(** ** Headers *)
Lemma headers_full t h : no_null (parse_headers t h).
Proof. unfold no_null, parse_headers, FullDict. apply Forall_forall. intros [k v] Hin. apply full_In in Hin as [_ Hv]. auto. Qed.
Lemma json_headers st h b x : JSONResponse st h b = V x -> no_null (rs_headers x).
Proof. unfold JSONResponse. intros H. apply vbind_V in H as (y & _ & H). injection H as <-. apply headers_full. Qed.
Lemma redirect_headers url h x : RedirectResponse url h = V x -> no_null (rs_headers x) /\ rs_body x = [].
Proof.
  unfold RedirectResponse. intros H. apply vbind_V in H as (y & _ & H). injection H as <-. split; [|reflexivity]. simpl.
  unfold full_setitem. cbn [is_none]. apply (Forall_dset (fun v => v <> PNone)); [discriminate|]. apply headers_full.
Qed.
Lemma error_redirect_headers cfg data e x : error_redirect cfg data e = V x -> no_null (rs_headers x) /\ rs_body x = [].
Proof.
  unfold error_redirect. intros H.
  destruct (oe_kind e); try (destruct (param "redirect_uri" data); [|discriminate]);
    apply vbind_V in H as (url & _ & H); eapply redirect_headers; eauto.
Qed.

Section WithEnv.
Variable E : env.

Lemma p_token_full p hs r tr x : exec (token_endpoint E p hs r) tr (V x) ->
  no_null (rs_headers x) /\ exists d, json_body x d /\ no_null d.
Proof.
  intros H. apply token_exec in H as (y & Hy & Hx). destruct y as [y|[e|e]]; [| |discriminate].
  - injection Hx as <-. apply token_body_exec in Hy. inversion Hy as [| | |g i c tr' y' Hg Hgt Ha Hm Hin Hex E1 E2]. subst tr.
    destruct y' as [d|]; [|discriminate]. apply grant_dict in Hex as (a & ow & sc & Hc & Hw & Ht1 & Ht2 & Hn).
    split; [eapply json_headers; eauto|]. apply json_response_V in E2 as (Hs & Hj & Hh); [|auto]. eauto.
  - symmetry in Hx. unfold token_error in Hx. split; [eapply json_headers; eauto|].
    apply json_response_V in Hx as (Hs & Hj & Hh); [|apply dump_wf]. exists (dump e). split; [auto|apply dump_no_null].
Qed.
Lemma p_revocation_full r tr x : exec (revocation_endpoint r) tr (V (Some x)) ->
  no_null (rs_headers x) /\ (rs_body x = lit "null" \/ exists d, json_body x d /\ no_null d).
Proof.
  intros H. apply revocation_exec in H as (y & Hy & Hx). destruct y as [y|[e|e]]; [| |discriminate].
  - inversion Hy; subst; [discriminate|]. injection Hx as ->. split; [|left; reflexivity].
    unfold no_null. repeat constructor. discriminate.
  - unfold revoke_error in Hx. destruct (JSONResponse _ _ _) as [z|] eqn:Ez; [|discriminate]. injection Hx as <-.
    split; [eapply json_headers; eauto|]. right. apply json_response_V in Ez as (Hs & Hj & Hh); [|apply dump_wf].
    exists (dump e). split; [auto|apply dump_no_null].
Qed.
Lemma p_authorization_full p hs r tr x : exec (authorization_endpoint E p hs r) tr (V x) -> no_null (rs_headers x) /\ rs_body x = [].
Proof.
  intros H. apply authz_exec in H as (y & Hy & Hx). destruct y as [y|[e|e]]; [| |discriminate].
  - injection Hx as <-. inversion Hy as [| | | |u uri cid c tr' y' Hu Hd Hc Hrt Hg Hin Hr Hs E1 E2]; subst. destruct y' as [url|]; [|discriminate].
    eapply redirect_headers; eauto.
  - symmetry in Hx. eapply error_redirect_headers; eauto.
Qed.
Lemma p_consent_full p r tr x : exec (get_consent_data p r) tr (V (ConsentRedirect x)) -> no_null (rs_headers x) /\ rs_body x = [].
Proof.
  intros H. apply consent_exec in H as (y & Hs & Hx). destruct y as [y|[e|e]].
  - injection Hx as <-. inversion Hs.
  - destruct (error_redirect (pv_config p) (rq_data r) e) as [z|] eqn:Ez; [|discriminate]. injection Hx as <-. eapply error_redirect_headers; eauto.
  - discriminate.
Qed.

(** ** C60: the token endpoint never revokes *)
Lemma p_token_no_revoke p hs r tr x : exec (token_endpoint E p hs r) tr x -> forall c t h y, ~ In (ORevokeToken c t h y) tr.
Proof.
  intros H c t h y Hin.
  assert (Hc : calls (fun o => revokes o = false) (token_endpoint E p hs r)).
  { unfold token_endpoint. apply calls_pexcept; [|intros; exact I]. apply calls_pbind; [exact I|]. intros _. apply calls_pbind; [exact I|]. intros g.
    apply calls_pbind; [eapply calls_weaken; [|apply authenticate_calls]; intros o (i & z & ->); reflexivity|]. intros c'.
    destruct (negb _); [exact I|]. apply calls_pbind; [|intros; exact I].
    assert (Hh : forall l d c u, calls (fun o => revokes o = false) (run_token_hooks E l d c u)).
    { intros l d c0 u. eapply calls_weaken; [|apply token_hooks_calls]. intros []; simpl; tauto. }
    assert (Hn : forall o, is_now o -> revokes o = false) by (intros o (z & ->); reflexivity).
    destruct g; cbn [grant_token].
    - unfold code_token, pfinally. apply calls_ptry.
      + unfold code_exchange, maybe_refresh. calls_go; try reflexivity; try apply Hh; eapply calls_weaken; [exact Hn|apply vac_calls].
      + intros z. apply calls_ptry; [destruct (param "code" _); calls_go; reflexivity|]. intros []; exact I.
    - unfold cc_token. calls_go; reflexivity.
    - unfold refresh_grant, maybe_refresh. calls_go; try reflexivity; (eapply calls_weaken; [exact Hn|apply vrt_calls]). }
  pose proof (calls_exec _ _ Hc _ _ H) as Hf. rewrite Forall_forall in Hf. apply Hf in Hin. discriminate.
Qed.

(** ** C61 *)
Lemma secret_of r i c : authenticates r i c -> cl_auth_method c = lit "client_secret_basic" \/ cl_auth_method c = lit "client_secret_post" ->
  exists s, s <> [] /\ cl_secret c = Some s.
Proof.
  intros (_ & [(s & Hs & _ & Hc & _)|[(s & Hs & _ & _ & Hc & _)|(_ & _ & _ & Hm)]]) H; [eauto|eauto|].
  rewrite Hm in H. destruct H; discriminate.
Qed.
Definition asked (r : request) : option (list str) := match arg "scope" (rq_data r) with Some s => Some (words s) | None => None end.
Lemma arg_dremove k k' d : lit k <> lit k' -> arg k (dremove (lit k') d) = arg k d.
Proof. intros H. unfold arg. rewrite lookup_dremove_other by auto. reflexivity. Qed.
Lemma cc_run p hs r tr x : exec (token_endpoint E p hs r) tr x -> data_has r "grant_type" (lit "client_credentials") ->
  forall o, In o tr -> ~ is_find o ->
  exists i c y, tr = [OFindClient i (V (Some c)); o] /\ authenticates r i c /\
    (cl_auth_method c = lit "client_secret_basic" \/ cl_auth_method c = lit "client_secret_post") /\
    o = OCreateAT c (OwnClient c) (cl_allowed c (asked r)) y /\
    validate_requested_scopes (pv_config p) (asked r) c None = V tt.
Proof.
  intros H Hgt o Hin Ho. apply token_exec in H as (z & H & _). apply token_body_exec in H.
  destruct H as [e He Hk | g tr e Hg Hd H | g i c Hg Hd Ha Hm Hn | g i c tr z Hg Hd Ha Hm Hn H].
  - destruct Hin.
  - exfalso. apply authenticate_trace in H. rewrite Forall_forall in H. auto.
  - exfalso. destruct Hin as [<-|[]]. apply Ho. unfold is_find. eauto.
  - pose proof (grant_type_cc _ (data_gt _ _ _ Hd Hgt)) as ->. cbn [grant_token grant_methods] in *.
    destruct Hin as [<-|Hin]; [exfalso; apply Ho; unfold is_find; eauto|].
    assert (Heq : cc_scopes (dremove (lit "grant_type") (rq_data r)) = asked r).
    { unfold cc_scopes, asked. rewrite arg_dremove by discriminate. reflexivity. }
    apply cc_exec in H as [[-> _]|(Hv & y & -> & _)]; [destruct Hin|]. rewrite Heq in *. destruct Hin as [<-|[]].
    exists i, c, y. split; [auto|]. split; [auto|]. split; [|auto].
    destruct Hm as [Hm|Hm]; [discriminate|]. simpl in Hm. intuition auto.
Qed.
Lemma asked_In r l : asked r = Some l -> forall w, In w l <-> requested r w.
Proof.
  unfold asked. destruct (arg "scope" (rq_data r)) as [s|] eqn:Es; [|discriminate]. intros [= <-] w. apply arg_Some in Es as [Es _].
  rewrite words_In. unfold requested, data_has. split; [eauto|]. intros (s' & Hs & Hw). congruence.
Qed.
Lemma p_client_credentials p hs r tr x o : exec (token_endpoint E p hs r) tr x -> data_has r "grant_type" (lit "client_credentials") ->
  In o tr -> creates_at o = true \/ creates_rt o = true ->
  exists i c s req y, tr = [OFindClient i (V (Some c)); o] /\ authenticates r i c /\
    (cl_auth_method c = lit "client_secret_basic" \/ cl_auth_method c = lit "client_secret_post") /\
    s <> [] /\ cl_secret c = Some s /\ o = OCreateAT c (OwnClient c) (cl_allowed c req) y /\
    (req = None \/ exists l, req = Some l /\ (forall w, In w l <-> requested r w) /\
       incl l (cf_scopes (pv_config p)) /\ incl l (cl_allowed c req)).
Proof.
  intros H Hgt Hin Hc.
  destruct (cc_run _ _ _ _ _ H Hgt o Hin) as (i & c & y & -> & Ha & Hm & -> & Hv).
  { intros (i & z & ->). destruct Hc; discriminate. }
  destruct (secret_of _ _ _ Ha Hm) as (s & Hs & Hsec). exists i, c, s, (asked r), y.
  do 6 (split; [solve [auto]|]). destruct (asked r) as [l|] eqn:El; [|auto]. right. exists l. split; [auto|]. split; [apply asked_In; auto|].
  apply validate_scopes_V in Hv. auto.
Qed.
Lemma p_cc_no_refresh p hs r tr x : exec (token_endpoint E p hs r) tr x -> data_has r "grant_type" (lit "client_credentials") ->
  (forall c o sc y, ~ In (OCreateRT c o sc y) tr) /\
  (forall z, x = V z -> exists d, json_body z d /\ lookup (lit "refresh_token") d = None).
Proof.
  intros H Hgt. split.
  - intros c o sc y Hin. destruct (cc_run _ _ _ _ _ H Hgt _ Hin) as (i & c' & y' & _ & _ & _ & Ho & _); [|discriminate].
    intros (i & z & Hz). discriminate.
  - intros z ->. apply token_exec in H as (y & Hy & Hx). destruct y as [y|[e|e]]; [| |discriminate].
    + injection Hx as <-. apply token_body_exec in Hy. inversion Hy as [| | |g i c tr' y' Hg Hd Ha Hm Hin Hex E1 E2]. subst tr.
      pose proof (grant_type_cc _ (data_gt _ _ _ Hd Hgt)) as ->. cbn [grant_token] in Hex.
      destruct y' as [d|]; [|discriminate]. apply cc_exec in Hex as [[_ [d' Hex]]|(_ & [a|e] & _ & Hex)]; try discriminate. injection Hex as ->.
      revert E2. generalize (match cc_scopes (dremove (lit "grant_type") (rq_data r)) with
          | Some l => if eql (cl_allowed c (cc_scopes (dremove (lit "grant_type") (rq_data r)))) l then [] else cl_allowed c (cc_scopes (dremove (lit "grant_type") (rq_data r)))
          | None => cl_allowed c (cc_scopes (dremove (lit "grant_type") (rq_data r))) end) as sc. intros sc E2.
      apply json_response_V in E2 as (Hs & Hj & Hh); [|apply (create_token_dict a (cf_token_lifespan (pv_config p)) None sc)].
      eexists. split; [exact Hj|]. destruct sc; reflexivity.
    + symmetry in Hx. unfold token_error in Hx. apply json_response_V in Hx as (Hs & Hj & Hh); [|apply dump_wf].
      exists (dump e). split; [auto|]. rewrite dump_params. unfold error_params, opt_param.
      destruct (oe_desc e), (oe_uri e), (oe_state e); reflexivity.
Qed.

(** ** C62 *)
Lemma p_scope_supported p hs r tr x c o sc y s w : order_ok E -> exec (token_endpoint E p hs r) tr x -> In (OCreateAT c o sc y) tr ->
  data_has r "grant_type" (lit "client_credentials") \/ data_has r "grant_type" (lit "refresh_token") ->
  restricts c -> data_has r "scope" s -> token_of w s -> incl sc (cf_scopes (pv_config p)).
Proof.
  intros Ho H Hin [Hgt|Hgt] Hr Hs Hw.
  - destruct (p_client_credentials _ _ _ _ _ _ H Hgt Hin) as (i & c' & s' & req & y' & _ & _ & _ & _ & _ & Heq & Hreq); [simpl; auto|].
    injection Heq as <- _ -> _.
    assert (Hreq' : exists l, asked r = Some l /\ In w l).
    { unfold asked. assert (Ha : arg "scope" (rq_data r) = Some s). { apply arg_Some. split; [exact Hs|]. intros ->. destruct Hw as (Hn & _ & a & b & He & _). destruct a, w; try discriminate; congruence. }
      rewrite Ha. exists (words s). split; [auto|]. apply words_In. auto. }
    destruct (cc_run _ _ _ _ _ H Hgt _ Hin) as (i2 & c2 & y2 & _ & _ & _ & He2 & Hv); [intros (i2 & z2 & Hz); discriminate|].
    injection He2 as <- _ Hsc. destruct Hreq' as (l & Hl & _). rewrite Hl in *. apply validate_scopes_V in Hv as [Hv _].
    rewrite Hsc. intros z Hz. apply Hv. eapply Hr; eauto.
  - destruct (p_refresh_grant _ _ _ _ _ _ _ Ho H Hgt Hin) as (i & c' & token & t & now & off & d & ou & rest & sc' & _ & _ & _ & _ & _ & _ & Hc & _ & Hsup); [simpl; auto|].
    destruct Hc as [[y' Hc]|[[y' Hc] _]]; [|discriminate]. injection Hc as <- _ <- _. intros z Hz. eapply Hsup; eauto.
Qed.

(** ** C63 *)
Lemma revoke_error_status e x : revoke_error e = V (Some x) ->
  rs_status x = match oe_kind e with InvalidClient => 401 | _ => 400 end /\ json_body x (dump e).
Proof.
  unfold revoke_error. destruct (JSONResponse _ _ _) as [z|] eqn:Ez; [|discriminate]. intros [= <-].
  apply json_response_V in Ez as (Hs & Hj & Hh); [|apply dump_wf]. auto.
Qed.
Lemma revoke_error_total e : flat_dict (dump e) -> exists x, revoke_error e = V (Some x).
Proof.
  intros H. unfold revoke_error. destruct (JSONResponse _ _ _) as [z|] eqn:Ez; [eauto|]. destruct (json_response_X _ _ _ _ Ez H).
Qed.
Lemma p_revoke_sound r tr x c t h y : exec (revocation_endpoint r) tr x -> In (ORevokeToken c t h y) tr ->
  exists i, tr = [OFindClient i (V (Some c)); ORevokeToken c t h y] /\ authenticates r i c /\ form_has r "token" t /\
    h = lookup (lit "token_type_hint") (form r) /\ (h = None \/ h = Some (lit "access_token") \/ h = Some (lit "refresh_token")).
Proof.
  intros H Hin. apply revocation_exec in H as (z & Hs & _).
  assert (Hhint : forall h, h = param "token_type_hint" (form r) -> (h = None \/ h = Some [] \/ exists a, h = Some a /\ In a supported_tokens) ->
    h = None \/ h = Some (lit "access_token") \/ h = Some (lit "refresh_token")).
  { intros h' Hh [->|[->|(a & -> & Ha)]]; [auto|exfalso; eapply form_nonblank; symmetry; exact Hh|]. simpl in Ha. intuition (subst; auto). }
  destruct Hs as [tr e Ha | i c' Ha Hn | i c' h' e Ha Hh Hne Hns Hk Hde Hl | i c' t' hint e Ha Ht Hne Hh Hs | i c' t' hint Ha Ht Hne Hh Hs].
  - apply authenticate_trace in Ha. rewrite Forall_forall in Ha. destruct (Ha _ Hin) as (i & w & Hw). discriminate.
  - destruct Hin as [Hin|[]]; discriminate.
  - destruct Hin as [Hin|[]]; discriminate.
  - destruct Hin as [Hin|[Hin|[]]]; [discriminate|]. injection Hin as <- <- <- <-. exists i. do 4 (split; [solve [auto]|]). auto.
  - destruct Hin as [Hin|[Hin|[]]]; [discriminate|]. injection Hin as <- <- <- <-. exists i. do 4 (split; [solve [auto]|]). auto.
Qed.
(** The credentials name no client, or they are wrong, or there are none. *)
Lemma p_revoke_denied r tr x : exec (revocation_endpoint r) tr (V x) -> no_oauth_raise tr ->
  (forall i c, In (OFindClient i (V (Some c))) tr -> ~ authenticates r i c) ->
  exists z d, x = Some z /\ rs_status z = 401 /\ json_body z d /\ lookup (lit "error") d = Some (PStr (lit "invalid_client")) /\
    forall c t h y, ~ In (ORevokeToken c t h y) tr.
Proof.
  intros H Hno Hna. assert (Hnr : forall c t h y, ~ In (ORevokeToken c t h y) tr).
  { intros c t h y Hin. destruct (p_revoke_sound _ _ _ _ _ _ _ H Hin) as (i & -> & Ha & _). apply (Hna i c); [left; auto|auto]. }
  apply revocation_exec in H as (z & Hs & Hx).
  destruct Hs as [tr e Ha | i c Ha Hn | i c h' e Ha Hh Hne Hns Hk Hde Hl | i c t' hint e Ha Ht Hne Hh Hs | i c t' hint Ha Ht Hne Hh Hs];
    try (exfalso; apply (Hna i c); [left; reflexivity|auto]; fail).
  destruct e as [e|e]; [|discriminate].
  apply authenticate_exec in Ha as [[-> [Ha|(e' & Ha & _)]] | (name & m & i & s & headers & Hm & Hal & Hc & Hhd & oc & -> & Ha)]; [| discriminate|].
  - unfold oerr in Ha; injection Ha as ->. symmetry in Hx. destruct x as [z|]; [|unfold revoke_error in Hx; destruct (JSONResponse _ _ _); discriminate].
    apply revoke_error_status in Hx as [Hs Hj]. eexists z, _. split; [auto|]. split; [exact Hs|]. split; [exact Hj|]. split; [reflexivity|auto].
  - assert (He : oe_kind e = InvalidClient).
    { destruct oc as [[c|]|e'].
      - destruct (eqo _ _ && eqs _ _); [discriminate|]. destruct Ha as [d Ha]. unfold oerr in Ha; injection Ha as ->. reflexivity.
      - destruct Ha as [d Ha]. unfold oerr in Ha; injection Ha as ->. reflexivity.
      - exfalso. injection Ha as <-. apply (Hno (OFindClient i (X (OA e))) e); [left; auto|reflexivity]. }
    symmetry in Hx. destruct x as [z|]; [|unfold revoke_error in Hx; destruct (JSONResponse _ _ _); discriminate].
    apply revoke_error_status in Hx as [Hs Hj]. rewrite He in Hs. eexists z, _. split; [auto|]. split; [exact Hs|]. split; [exact Hj|].
    split; [rewrite dump_error, He; reflexivity|auto].
Qed.
Lemma p_revoke_hint r tr x i c t h : exec (revocation_endpoint r) tr x -> In (OFindClient i (V (Some c))) tr -> presents r i c ->
  form_has r "token" t -> form_has r "token_type_hint" h -> h <> lit "access_token" -> h <> lit "refresh_token" ->
  tr = [OFindClient i (V (Some c))] /\
  exists z d, x = V (Some z) /\ rs_status z = 400 /\ json_body z d /\ lookup (lit "error") d = Some (PStr (lit "unsupported_token_type")).
Proof.
  intros H Hin Hp Ht Hh N1 N2. apply revocation_exec in H as (z & Hs & Hx).
  assert (Hns : ~ In h supported_tokens) by (simpl; intuition congruence).
  assert (Hhn : h <> []). { intros ->. eapply form_nonblank; exact Hh. }
  assert (Htn : t <> []). { intros ->. eapply form_nonblank; exact Ht. }
  assert (Hbad : forall hint, hint = param "token_type_hint" (form r) -> (hint = None \/ hint = Some [] \/ exists a, hint = Some a /\ In a supported_tokens) -> False).
  { intros hint Hhint Hc. unfold param in Hhint. unfold form_has in Hh. rewrite Hh in Hhint. subst hint. destruct Hc as [Hc|[Hc|(a & Hc & Ha)]]; [discriminate|congruence|congruence]. }
  destruct Hs as [tr e Ha | i' c' Ha Hn | i' c' h' e Ha Hh' Hne Hns' Hk Hde Hl | i' c' t' hint e Ha Ht' Hne Hh' Hs | i' c' t' hint Ha Ht' Hne Hh' Hs].
  - exfalso. pose proof (p_authenticate_complete _ _ _ [] Hp (or_introl eq_refl)) as Hc.
    apply authenticate_exec in Ha as Ha'. destruct Ha' as [[-> _] | (? & ? & i' & ? & ? & _ & _ & _ & _ & oc & -> & _)]; [destruct Hin|].
    destruct Hin as [Hin|[]]. injection Hin as -> ->. pose proof (exec_det _ _ _ _ Ha Hc). discriminate.
  - exfalso. apply arg_None in Hn. unfold param in Hn. unfold form_has in Ht. rewrite Ht in Hn. destruct Hn; congruence.
  - destruct Hin as [Hin|[]]. injection Hin as -> ->. split; [auto|].
    destruct (revoke_error_total e) as [z Hz].
    { destruct Hl as (_ & Hu & Hst & _). apply dump_flat; rewrite ?Hk, ?Hde, ?Hu, ?Hst; [slit|exact I|exact I|exact I]. }
    exists z, (dump e). split; [congruence|]. apply revoke_error_status in Hz as [Hs Hj]. rewrite Hk in Hs. split; [auto|]. split; [auto|].
    rewrite dump_error, Hk. reflexivity.
  - destruct (Hbad _ Hh' Hs).
  - destruct (Hbad _ Hh' Hs).
Qed.
End WithEnv.
