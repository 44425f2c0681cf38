(** The authorization endpoint and the consent data: lemmas for C45-C49 and C71. *)
From Coq Require Import String Ascii List NArith ZArith Bool Lia.
From Verif Require Import Base BaseFacts Utf8 Utf8Facts SpecCodec Json Url UrlFacts Webtools WebtoolsFacts Crypto Jwk Jws Jwt Prog ProgFacts Http OAuth SpecOAuth OAuthFacts GrantFacts FormFacts EndpointFacts RequestFacts.
Import ListNotations.
Open Scope N_scope.

(** ** Scope tokens *)
Definition token_in (w s : str) : Prop :=
  w <> [] /\ Forall (fun c => py_space c = false) w /\
  exists a b, s = a ++ w ++ b /\ (a = [] \/ exists a' c, a = a' ++ [c] /\ py_space c = true) /\
    (b = [] \/ exists c b', b = c :: b' /\ py_space c = true).
Lemma nowhite w : Forall (fun c => py_space c = false) w <-> Forall (fun c => ~ In c SpecReaders.white) w.
Proof. split; apply Forall_impl; intros c; rewrite <- white_spec; destruct (py_space c); congruence. Qed.
Lemma token_white w s : token_in w s <-> token_of w s.
Proof.
  unfold token_in, token_of. rewrite nowhite. split; intros (H1 & H2 & a & b & H3 & Ha & Hb); (split; [auto|]; split; [auto|]; exists a, b; split; [auto|]);
    (split; [destruct Ha as [Ha|(a' & c & Ha & Hc)]; [auto|right; exists a', c; split; [auto|apply white_spec; auto]]
            |destruct Hb as [Hb|(c & b' & Hb & Hc)]; [auto|right; exists c, b'; split; [auto|apply white_spec; auto]]]).
Qed.
Lemma words_sound w s : forall acc, Forall (fun c => py_space c = false) acc -> In w (words_aux s acc) -> token_in w (acc ++ s).
Proof.
  induction s as [|c s IH]; intros acc Ha H; simpl in H.
  - destruct acc as [|x acc]; [destruct H|]. destruct H as [<-|[]]. split; [discriminate|]. split; [auto|].
    exists [], []. rewrite !app_nil_r. auto.
  - destruct (py_space c) eqn:Ec.
    + assert (Hrest : In w (words_aux s []) -> token_in w (acc ++ c :: s)).
      { intros Hw. apply IH in Hw; [|constructor]. destruct Hw as (Nw & Fw & a & b & E & Hl & Hr). cbn [app] in E.
        split; [auto|]. split; [auto|]. exists (acc ++ c :: a), b. rewrite E, <- app_assoc. split; [auto|]. split; [|auto].
        right. destruct Hl as [->|(a' & d & -> & Hd)]; [exists acc, c; auto|]. exists (acc ++ c :: a'), d. rewrite <- app_assoc. auto. }
      destruct acc as [|x acc]; [auto|]. destruct H as [<-|H]; [|auto].
      split; [discriminate|]. split; [auto|]. exists [], (c :: s). split; [auto|]. split; [auto|]. right. eauto.
    + apply IH in H; [|apply Forall_app; auto]. rewrite <- app_assoc in H. exact H.
Qed.
Lemma words_aux_nospace w b acc : Forall (fun c => py_space c = false) w -> words_aux (w ++ b) acc = words_aux b (acc ++ w).
Proof.
  intros H. revert acc. induction H as [|c w Hc H IH]; intros acc; simpl; [rewrite app_nil_r; auto|].
  rewrite Hc, IH, <- app_assoc. auto.
Qed.
Lemma words_In w s : In w (words s) <-> token_of w s.
Proof.
  rewrite <- token_white. split; [apply (words_sound w s []); constructor|].
  intros (Nw & Fw & a & b & -> & Hl & Hr). unfold words.
  assert (Hgo : forall a acc, (a = [] -> acc = []) -> (a = [] \/ exists a' c, a = a' ++ [c] /\ py_space c = true) -> In w (words_aux (a ++ w ++ b) acc)).
  { clear a Hl. induction a as [|c a IH]; intros acc Hacc Hl; cbn [app].
    - rewrite Hacc, words_aux_nospace by auto. cbn [app].
      destruct Hr as [->|(d & b' & -> & Hd)]; simpl; [|rewrite Hd]; destruct w; try congruence; simpl; auto.
    - simpl. destruct Hl as [?|(a' & d & E & Hd)]; [discriminate|].
      assert (Ha : a = [] \/ exists a' c, a = a' ++ [c] /\ py_space c = true).
      { destruct a' as [|x a']; cbn [app] in E; injection E as -> ->; [auto|right; eauto]. }
      destruct (py_space c) eqn:Ec.
      + destruct acc; [|right]; apply IH; auto.
      + apply IH; [|auto]. intros ->. destruct a' as [|x a']; cbn [app] in E; [|destruct a'; discriminate]. injection E as ->. congruence. }
  apply Hgo; auto.
Qed.

(** ** Redirects *)
Lemma opt_param_In k v o x : In (lit k, v) (opt_param x o) <-> lit k = lit x /\ o = Some v.
Proof. unfold opt_param. destruct o; simpl; split; [intros [H|[]]; injection H as -> ->; auto|intros [-> [= ->]]; auto|tauto|intros [_ H]; discriminate]. Qed.
Lemma error_params_state e v : In (lit "state", v) (error_params e) <-> oe_state e = Some v.
Proof.
  unfold error_params. split.
  - intros [H|H]; [discriminate|]. rewrite !in_app_iff, !opt_param_In in H. destruct H as [[H _]|[[H _]|[_ H]]]; [discriminate|discriminate|auto].
  - intros H. right. rewrite !in_app_iff, !opt_param_In. auto.
Qed.
Lemma error_params_code e v : ~ In (lit "code", v) (error_params e).
Proof.
  unfold error_params. intros [H|H]; [discriminate|]. rewrite !in_app_iff, !opt_param_In in H.
  destruct H as [[H _]|[[H _]|[H _]]]; discriminate.
Qed.
Lemma code_redirect uri code st url x : authorization_response uri code st = V url -> RedirectResponse url [] = V x ->
  code <> [] -> st <> Some [] -> redirects x uri ((lit "code", code) :: state_params st).
Proof.
  unfold authorization_response. intros H1 H2 Hc Hs. apply lift_V in H1.
  eapply redirect_params; [exact H1|exact H2|]. unfold pstr, state_params. destruct st; reflexivity.
Qed.
Lemma lib_redirect cfg data e x st : error_redirect cfg data e = V x -> lib_error st e -> st <> Some [] ->
  exists uri, match oe_kind e with Fatal _ => uri = cf_error_url cfg | _ => lookup (lit "redirect_uri") data = Some uri end /\ redirects x uri (error_params e).
Proof.
  intros H _ _. apply error_redirect_sends in H as (uri & Hk & H). exists uri. auto.
Qed.

Section WithEnv.
Variable E : env.

(** ** What an execution of the authorization endpoint answers *)
Inductive authz_answer (p : provider) (r : request) : list obs -> response -> Prop :=
| ZA_fatal : forall tr e x, fatal_error e -> Forall quiet tr -> redirects x (cf_error_url (pv_config p)) (error_params e) -> authz_answer p r tr x
| ZA_denied : forall e uri x, rq_user r = None -> data_has r "redirect_uri" uri -> lib_error None e -> redirects x uri (error_params e) -> authz_answer p r [] x
| ZA_type : forall e uri rt u x, rq_user r = Some u -> data_has r "redirect_uri" uri -> data_has r "response_type" rt -> ~ (In GCode (pv_grants p) /\ rt = lit "code") ->
    lib_error (param "state" (rq_data r)) e -> redirects x uri (error_params e) -> authz_answer p r [] x
| ZA_error : forall u uri cid c e x, rq_user r = Some u -> data_has r "redirect_uri" uri -> data_has r "client_id" cid ->
    In uri (cl_redirects c) -> lib_error (param "state" (rq_data r)) e -> redirects x uri (error_params e) -> authz_answer p r [OFindClient cid (V (Some c))] x
| ZA_ok : forall u uri cid c code ad x, rq_user r = Some u -> data_has r "redirect_uri" uri -> data_has r "client_id" cid ->
    In uri (cl_redirects c) -> ad_redirect ad = uri -> redirects x uri ((lit "code", code) :: state_params (param "state" (rq_data r))) ->
    authz_answer p r [OFindClient cid (V (Some c)); OSecretToken 64 (V code); OSaveCode code ad c u (V tt)] x.

Lemma non_fatal k cfg data uri : match k with Fatal _ => uri = cf_error_url cfg | _ => lookup (lit "redirect_uri") data = Some uri end ->
  (forall c, k <> Fatal c) -> lookup (lit "redirect_uri") data = Some uri.
Proof. destruct k; auto. intros _ H. destruct (H code); auto. Qed.
Lemma data_has_eq r k a b : data_has r k a -> lookup (lit k) (rq_data r) = Some b -> a = b.
Proof. unfold data_has. congruence. Qed.
Lemma oa_raise tr o e : no_oauth_raise tr -> In o tr -> raised o = Some (OA e) -> False.
Proof. intros H Hin Hr. exact (H o e Hin Hr). Qed.

Lemma authz_answers p hs r tr x : exec (authorization_endpoint E p hs r) tr (V x) -> made r -> no_oauth_raise tr -> tokens_ok tr ->
  authz_answer p r tr x.
Proof.
  intros H Hm Hr Ht. apply authz_exec in H as (y & Hs & Hx).
  assert (Hst : param "state" (rq_data r) <> Some []) by (apply made_nonblank; auto).
  assert (Hn : forall e uri, data_has r "redirect_uri" uri -> (forall c, oe_kind e <> Fatal c) -> forall st, lib_error st e -> st <> Some [] ->
     V x = error_redirect (pv_config p) (rq_data r) e -> redirects x uri (error_params e)).
  { intros e uri Hu Hk st Hl Hs' Hx'. symmetry in Hx'. eapply lib_redirect in Hx' as (uri' & Hk' & Hx'); eauto.
    apply non_fatal in Hk'; [|auto]. rewrite (data_has_eq _ _ _ _ Hu Hk'). auto. }
  assert (Hf : forall e, fatal_error e -> V x = error_redirect (pv_config p) (rq_data r) e -> redirects x (cf_error_url (pv_config p)) (error_params e)).
  { intros e [Hk Hl] Hx'. symmetry in Hx'. eapply lib_redirect in Hx' as (uri' & Hk' & Hx'); eauto; [|discriminate]. rewrite Hk in Hk'. subst. auto. }
  destruct Hs as [e He | e uri Hu Hd Hk Hl | e uri rt u Hu Hd Hrt Hnot Hk Hl | u uri cid tr e Hu Hd Hc Hrt Hg Hs | u uri cid c tr y Hu Hd Hc Hrt Hg Hreg Hresp Hs].
  - eapply ZA_fatal; eauto; fa.
  - eapply ZA_denied; eauto. eapply Hn; eauto; [rewrite Hk|]; discriminate.
  - eapply ZA_type; eauto. eapply Hn; eauto. rewrite Hk. discriminate.
  - inversion Hs as [e' Ee Et | e' He Et Ee | c e' He Hin Et Ee | c e' Hk Hl Hin Hnin Et Ee | ]; subst.
    + destruct e as [e|e]; [|discriminate]. exfalso. eapply oa_raise; eauto; [left; reflexivity|reflexivity].
    + eapply ZA_fatal; eauto; fa.
    + eapply ZA_fatal; eauto; fa.
    + eapply ZA_error; eauto. eapply Hn; eauto. rewrite Hk. discriminate.
  - assert (Hpar : param "state" (dremove (lit "response_type") (rq_data r)) = param "state" (rq_data r)).
    { unfold param. apply lookup_dremove_other. discriminate. }
    inversion Hs as [e Hl Hk Et Ey | e Et Ey | ad code e Hv H1 H2 Et Ey | ad code Hv H1 H2 Et Ey]; subst.
    + rewrite Hpar in Hl. eapply ZA_error; eauto. eapply Hn; eauto. destruct Hk as [-> | ->]; discriminate.
    + destruct e as [e|e]; [|discriminate]. exfalso. eapply oa_raise; eauto; [right; left; reflexivity|reflexivity].
    + destruct e as [e|e]; [|discriminate]. exfalso. eapply oa_raise; eauto; [right; right; left; reflexivity|reflexivity].
    + destruct Hv as (_ & _ & _ & _ & _ & Hru & Hst' & _). rewrite Hpar in Hst'.
      unfold param in Hru. rewrite lookup_dremove_other in Hru by discriminate.
      assert (Hc0 : code <> []). { intros ->. apply (Ht 64). right. left. reflexivity. }
      rewrite (data_has_eq _ _ _ _ Hd Hru) in *.
      destruct (authorization_response (ad_redirect ad) code (ad_state ad)) as [url|e] eqn:Ea; [|unfold authorization_response in Ea; apply lift_X in Ea as (ex & -> & _); discriminate].
      destruct (RedirectResponse url []) as [x'|[e|e]] eqn:Er; [|unfold RedirectResponse in Er; apply vbind_X in Er as [Er|(? & _ & Er)]; [exfalso; eapply lift_OA; eauto|discriminate]|discriminate].
      injection Hx as ->. eapply ZA_ok; eauto. rewrite <- Hst'. eapply code_redirect; eauto. rewrite Hst'. auto.
Qed.

(** ** C45 *)
Lemma p_code_saved p hs r tr x code ad c u y : exec (authorization_endpoint E p hs r) tr x -> In (OSaveCode code ad c u y) tr ->
  exists cid uri, tr = [OFindClient cid (V (Some c)); OSecretToken 64 (V code); OSaveCode code ad c u y] /\
    rq_user r = Some u /\ data_has r "client_id" cid /\ data_has r "redirect_uri" uri /\ In uri (cl_redirects c) /\
    ad_redirect ad = uri /\ ad_state ad = lookup (lit "state") (rq_data r) /\
    data_has r "response_type" (lit "code") /\ In GCode (pv_grants p) /\ In (lit "code") (cl_responses c).
Proof.
  intros H Hin. apply authz_exec in H as (z & Hs & Hx).
  destruct Hs as [e He | e uri Hu Hd Hk Hl | e uri rt u' Hu Hd Hrt Hnot Hk Hl | u' uri cid tr e Hu Hd Hc Hrt Hg Hs | u' uri cid c' tr z Hu Hd Hc Hrt Hg Hreg Hresp Hs].
  - destruct Hin.
  - destruct Hin.
  - destruct Hin.
  - inversion Hs; subst; (destruct Hin as [Hin|[]]; discriminate).
  - destruct Hin as [Hin|Hin]; [discriminate|].
    assert (Hres : valid_ad hs (dremove (lit "response_type") (rq_data r)) ad /\ c' = c /\ u' = u /\ tr = [OSecretToken 64 (V code); OSaveCode code ad c u y]).
    { inversion Hs as [e Hl Hk Et Ey | e Et Ey | ad' code' e Hv H1 H2 Et Ey | ad' code' Hv H1 H2 Et Ey]; subst.
      - destruct Hin.
      - destruct Hin as [Hin|[]]. discriminate.
      - destruct Hin as [Hin|[Hin|[]]]; [discriminate|]. injection Hin as -> -> -> -> <-. auto.
      - destruct Hin as [Hin|[Hin|[]]]; [discriminate|]. injection Hin as -> -> -> -> <-. auto. }
    destruct Hres as ((_ & _ & _ & _ & _ & Hru & Hst & _) & -> & -> & ->).
    unfold param in Hru, Hst. rewrite lookup_dremove_other in Hru, Hst by discriminate.
    exists cid, uri. pose proof (data_has_eq _ _ _ _ Hd Hru). subst uri. do 9 (split; [solve [auto]|]). auto.
Qed.

Lemma p_code_sent p hs r tr x : exec (authorization_endpoint E p hs r) tr (V x) -> made r -> no_oauth_raise tr -> tokens_ok tr ->
  exists uri ps, redirects x uri ps /\
    (forall code, In (lit "code", code) ps -> exists ad c u, In (OSaveCode code ad c u (V tt)) tr /\ ad_redirect ad = uri) /\
    (forall code ad c u y, In (OSaveCode code ad c u y) tr -> ad_redirect ad = uri /\ ps = (lit "code", code) :: state_params (lookup (lit "state") (rq_data r))).
Proof.
  intros H Hm Hr Ht. apply authz_answers in H; auto.
  assert (Herr : forall uri e, redirects x uri (error_params e) -> Forall quiet tr ->
    exists uri ps, redirects x uri ps /\
    (forall code, In (lit "code", code) ps -> exists ad c u, In (OSaveCode code ad c u (V tt)) tr /\ ad_redirect ad = uri) /\
    (forall code ad c u y, In (OSaveCode code ad c u y) tr -> ad_redirect ad = uri /\ ps = (lit "code", code) :: state_params (lookup (lit "state") (rq_data r)))).
  { intros uri e Hd Hn. exists uri, (error_params e). split; [auto|]. split.
    - intros code Hc. destruct (error_params_code _ _ Hc).
    - intros code ad c u y Hin. rewrite Forall_forall in Hn. destruct (Hn _ Hin). }
  destruct H.
  - eapply Herr; eauto.
  - eapply Herr; eauto; fa.
  - eapply Herr; eauto; fa.
  - eapply Herr; eauto; fa.
  - exists uri, ((lit "code", code) :: state_params (param "state" (rq_data r))). split; [auto|]. split.
    + intros code' [Hc|Hc].
      * injection Hc as <-. exists ad, c, u. split; [simpl; auto|auto].
      * unfold state_params in Hc. destruct (param _ _); [destruct Hc as [Hc|[]]; discriminate|destruct Hc].
    + intros code' ad' c' u' y [Hin|[Hin|[Hin|[]]]]; try discriminate. injection Hin as <- <- _ _. auto.
Qed.

(** ** C46 *)
Lemma p_no_open_redirect p hs r tr x u : exec (authorization_endpoint E p hs r) tr (V x) -> made r ->
  rq_user r = Some u -> data_has r "response_type" (lit "code") -> In GCode (pv_grants p) ->
  (forall cid e, ~ In (OFindClient cid (X (OA e))) tr) ->
  (exists q, sends x (cf_error_url (pv_config p)) q) \/
  exists cid uri c q, In (OFindClient cid (V (Some c))) tr /\ data_has r "client_id" cid /\ data_has r "redirect_uri" uri /\
    In uri (cl_redirects c) /\ sends x uri q.
Proof.
  intros H Hm Hus Hrt0 Hg0 Hnr. apply authz_exec in H as (y & Hs & Hx).
  assert (Hf : forall e, fatal_error e -> V x = error_redirect (pv_config p) (rq_data r) e -> exists q, sends x (cf_error_url (pv_config p)) q).
  { intros e [Hk _] Hx'. symmetry in Hx'. apply error_redirect_sends in Hx' as (uri & Hu & q & Hq & _). rewrite Hk in Hu. subst. eauto. }
  assert (Hn : forall e uri, data_has r "redirect_uri" uri -> V x = error_redirect (pv_config p) (rq_data r) e ->
     (exists q, sends x (cf_error_url (pv_config p)) q) \/ exists q, sends x uri q).
  { intros e uri Hu Hx'. symmetry in Hx'. apply error_redirect_sends in Hx' as (uri' & Hu' & q & Hq & _).
    destruct (oe_kind e); try (right; exists q; rewrite (data_has_eq _ _ _ _ Hu Hu'); auto). subst. left. eauto. }
  destruct Hs as [e He | e uri Hu Hd Hk Hl | e uri rt u' Hu Hd Hrt Hnot Hk Hl | u' uri cid tr e Hu Hd Hc Hrt Hg Hs | u' uri cid c tr y Hu Hd Hc Hrt Hg Hreg Hresp Hs].
  - left. eauto.
  - congruence.
  - exfalso. apply Hnot. split; [auto|]. unfold data_has in *. congruence.
  - inversion Hs as [e' Ee Et | e' He Et Ee | c e' He Hin Et Ee | c e' Hk Hl Hin Hnin Et Ee | ]; subst.
    + destruct e as [e|e]; [|discriminate]. exfalso. eapply Hnr. left. reflexivity.
    + left; eauto.
    + left; eauto.
    + destruct (Hn _ _ Hd Hx) as [Hq|[q Hq]]; [auto|]. right. exists cid, uri, c, q. simpl. auto.
  - assert (Hend : (exists q, sends x (cf_error_url (pv_config p)) q) \/ exists q, sends x uri q).
    { destruct y as [url|[e|e]].
      - destruct (RedirectResponse url []) as [x'|[e|e]] eqn:Er; [|unfold RedirectResponse in Er; apply vbind_X in Er as [Er|(? & _ & Er)]; [exfalso; eapply lift_OA; eauto|discriminate]|discriminate].
        injection Hx as ->. inversion Hs as [| | | ad code Hv H1 H2 Et Ey]; subst. unfold authorization_response in Ey. apply lift_V in Ey.
        destruct Hv as (_ & _ & _ & _ & _ & Hru & _). unfold param in Hru. rewrite lookup_dremove_other in Hru by discriminate.
        rewrite (data_has_eq _ _ _ _ Hd Hru). destruct (redirect_sends _ _ _ _ _ Ey Er) as (q & _ & Hq & _). eauto.
      - eauto.
      - discriminate. }
    destruct Hend as [Hq|[q Hq]]; [auto|]. right. exists cid, uri, c, q. simpl. auto.
Qed.

(** ** C47 *)
Lemma p_state p hs r tr x u : exec (authorization_endpoint E p hs r) tr (V x) -> made r ->
  rq_user r = Some u -> no_oauth_raise tr -> tokens_ok tr ->
  exists uri ps, redirects x uri ps /\
    (uri = cf_error_url (pv_config p) \/ (data_has r "redirect_uri" uri /\ forall v, In (lit "state", v) ps <-> data_has r "state" v)).
Proof.
  intros H Hm Hus Hr Ht. apply authz_answers in H; auto.
  destruct H as [tr e x Hf Hq Hx | e uri x Hu Hd Hl Hx | e uri rt u' x Hu Hd Hrt Hnot Hl Hx | u' uri cid c e x Hu Hd Hc Hreg Hl Hx | u' uri cid c code ad x Hu Hd Hc Hreg Hru Hx].
  - exists (cf_error_url (pv_config p)), (error_params e). auto.
  - congruence.
  - exists uri, (error_params e). split; [auto|]. right. split; [auto|]. intros v. rewrite error_params_state. destruct Hl as (_ & _ & -> & _). reflexivity.
  - exists uri, (error_params e). split; [auto|]. right. split; [auto|]. intros v. rewrite error_params_state. destruct Hl as (_ & _ & -> & _). reflexivity.
  - exists uri, ((lit "code", code) :: state_params (param "state" (rq_data r))). split; [auto|]. right. split; [auto|]. intros v. unfold data_has, param.
    unfold state_params. destruct (lookup (lit "state") (rq_data r)) as [s|]; simpl; split.
    + intros [H|[H|[]]]; [discriminate|]. injection H as ->. auto.
    + intros [= ->]. auto.
    + intros [H|[]]. discriminate.
    + discriminate.
Qed.
Lemma p_state_consent p r tr x s : exec (get_consent_data p r) tr (V (ConsentRedirect x)) -> made r ->
  data_has r "scope" s -> no_oauth_raise tr ->
  exists uri ps, redirects x uri ps /\
    (uri = cf_error_url (pv_config p) \/ (data_has r "redirect_uri" uri /\ forall v, In (lit "state", v) ps <-> data_has r "state" v)).
Proof.
  intros H Hm Hsc Hr. apply consent_exec in H as (y & Hs & Hx).
  assert (Hst : param "state" (rq_data r) <> Some []) by (apply made_nonblank; auto).
  assert (Hf : forall e, fatal_error e -> V x = error_redirect (pv_config p) (rq_data r) e -> redirects x (cf_error_url (pv_config p)) (error_params e)).
  { intros e [Hk Hl] Hx'. symmetry in Hx'. eapply lib_redirect in Hx' as (uri' & Hk' & Hx'); eauto; [|discriminate]. rewrite Hk in Hk'. subst. auto. }
  assert (Hx' : exists e, y = X (OA e) /\ V x = error_redirect (pv_config p) (rq_data r) e).
  { destruct y as [k|[e|e]]; [|destruct (error_redirect (pv_config p) (rq_data r) e) as [z|z] eqn:Ez; [|discriminate]; injection Hx as ->; eauto|discriminate].
    inversion Hs; subst. discriminate. }
  clear Hx. destruct Hx' as (e & -> & Hx).
  inversion Hs as [e' He Et Ee | uri cid rt tr' e' Hd Hc Hrt Hcs Et Ee | uri cid rt c e' Hd Hc Hrt Hreg Hresp Ha Hk Hl Et Ee | ]; subst.
  - exists (cf_error_url (pv_config p)), (error_params e). auto.
  - inversion Hcs as [e' Ee Et | e' He Et Ee | c e' He Hin Et Ee | c e' Hk Hl Hin Hnin Et Ee | ]; subst.
    + exfalso. eapply oa_raise; eauto; [left; reflexivity|reflexivity].
    + exists (cf_error_url (pv_config p)), (error_params e). auto.
    + exists (cf_error_url (pv_config p)), (error_params e). auto.
    + exists uri, (error_params e). symmetry in Hx. pose proof Hl as Hl'. eapply lib_redirect in Hx as (uri' & Hk' & Hx); eauto.
      rewrite Hk in Hk'. rewrite (data_has_eq _ _ _ _ Hd Hk') in *. split; [auto|]. right. split; [auto|]. intros v. rewrite error_params_state. destruct Hl as (_ & _ & -> & _). reflexivity.
  - exfalso. unfold arg in Ha. unfold data_has in Hsc. rewrite Hsc in Ha. destruct s; [|discriminate]. eapply made_nonblank; eauto.
Qed.

(** ** C48, C49 *)
Lemma saved_ad p hs r tr x code ad c u y : exec (authorization_endpoint E p hs r) tr x -> In (OSaveCode code ad c u y) tr ->
  valid_ad hs (dremove (lit "response_type") (rq_data r)) ad /\ incl (ad_scopes ad) (cf_scopes (pv_config p)) /\ incl (ad_scopes ad) (cl_allowed c (Some (ad_scopes ad))).
Proof.
  intros H Hin. apply authz_exec in H as (z & Hs & _).
  destruct Hs as [e He | e uri Hu Hd Hk Hl | e uri rt u' Hu Hd Hrt Hnot Hk Hl | u' uri cid tr e Hu Hd Hc Hrt Hg Hs | u' uri cid c' tr z Hu Hd Hc Hrt Hg Hreg Hresp Hs].
  - destruct Hin.
  - destruct Hin.
  - destruct Hin.
  - inversion Hs; subst; (destruct Hin as [Hin|[]]; discriminate).
  - destruct Hin as [Hin|Hin]; [discriminate|].
    inversion Hs as [e Hl Hk Et Ey | e Et Ey | ad' code' e Hv H1 H2 Et Ey | ad' code' Hv H1 H2 Et Ey]; subst.
    + destruct Hin.
    + destruct Hin as [Hin|[]]. discriminate.
    + destruct Hin as [Hin|[Hin|[]]]; [discriminate|]. injection Hin as -> -> -> -> <-. auto.
    + destruct Hin as [Hin|[Hin|[]]]; [discriminate|]. injection Hin as -> -> -> -> <-. auto.
Qed.
Lemma p_saved_scopes p hs r tr x code ad c u y : exec (authorization_endpoint E p hs r) tr x -> In (OSaveCode code ad c u y) tr ->
  (forall s, In s (ad_scopes ad) <-> requested r s) /\
  (forall s, In s (ad_scopes ad) -> In s (cf_scopes (pv_config p)) /\ In s (cl_allowed c (Some (ad_scopes ad)))).
Proof.
  intros H Hin. destruct (saved_ad _ _ _ _ _ _ _ _ _ _ H Hin) as ((_ & _ & _ & _ & (s & Hs & Hw) & _) & H1 & H2).
  apply arg_Some in Hs as [Hs _]. rewrite lookup_dremove_other in Hs by discriminate. split; [|auto].
  intros t. rewrite Hw, words_In. unfold requested, data_has. split; [eauto|]. intros (s' & Hs' & Ht). congruence.
Qed.
Lemma p_saved_challenge p hs r tr x code ad c u y : exec (authorization_endpoint E p hs r) tr x -> In (OSaveCode code ad c u y) tr ->
  data_has r "code_challenge" (ad_challenge ad) /\ (43 <= length (ad_challenge ad) <= 128)%nat /\
  data_has r "code_challenge_method" (ad_method ad) /\ (ad_method ad = lit "plain" \/ ad_method ad = lit "S256").
Proof.
  intros H Hin. destruct (saved_ad _ _ _ _ _ _ _ _ _ _ H Hin) as ((Hc & Hl & Hm & Hms & _) & _).
  apply arg_Some in Hc as [Hc _]. rewrite lookup_dremove_other in Hc by discriminate.
  unfold param in Hm. rewrite lookup_dremove_other in Hm by discriminate. auto.
Qed.

(** ** C71 *)
Lemma p_consent p r tr c sc : exec (get_consent_data p r) tr (V (Consent c sc)) ->
  exists cid uri rt s, tr = [OFindClient cid (V (Some c))] /\ data_has r "client_id" cid /\
    data_has r "redirect_uri" uri /\ In uri (cl_redirects c) /\ data_has r "response_type" rt /\ In rt (cl_responses c) /\
    data_has r "scope" s /\ sc = cl_allowed c (Some (words s)) /\ (restricts c -> forall x, In x sc -> requested r x).
Proof.
  intros H. apply consent_exec in H as (y & Hs & Hx).
  inversion Hs as [e He Et Ee | uri cid rt tr' e Hd Hc Hrt Hcs Et Ee | uri cid rt c' e Hd Hc Hrt Hreg Hresp Ha Hk Hl Et Ee | uri cid rt c' s Hd Hc Hrt Hreg Hresp Hsc Hne Et Ee]; subst.
  - destruct (error_redirect _ _ e); discriminate.
  - destruct e as [e|e]; [destruct (error_redirect _ _ e); discriminate|discriminate].
  - destruct (error_redirect _ _ e); discriminate.
  - injection Hx as -> ->. exists cid, uri, rt, s. do 8 (split; [solve [auto]|]). intros Hres x Hin. apply Hres in Hin. apply words_In in Hin. exists s. auto.
Qed.
End WithEnv.
