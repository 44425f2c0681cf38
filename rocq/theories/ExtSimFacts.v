(** Proofs that the endpoints of OAuth.v are those of Ext.v with the grants, methods and hooks of the library. *)
From Coq Require Import String Ascii List NArith ZArith Bool Lia.
From Verif Require Import Base BaseFacts Json Url Webtools WebtoolsFacts Prog Http OAuth ProgFacts SpecOAuth OAuthFacts GrantFacts EndpointFacts Ext SpecExt ExtFacts.
Import ListNotations.
Open Scope N_scope.

Lemma same_Ret {A} (r : res A) : same (Ret r) (XRet r).
Proof.
  intros t x. rewrite xexec_Ret. split.
  - intros [-> ->]. exists []. split; [auto|]. apply exec_Ret. auto.
  - intros (tr & -> & H). apply exec_Ret in H as [-> ->]. auto.
Qed.
Lemma same_try {A B} (p : prog A) q (f : res A -> prog B) g : same p q -> (forall r, same (f r) (g r)) -> same (ptry p f) (xtry q g).
Proof.
  intros H1 H2 t x. rewrite xexec_ptry. split.
  - intros (y & t1 & t2 & -> & Hq & Hg). apply H1 in Hq as (a & -> & Hp). apply H2 in Hg as (b & -> & Hf). exists (a ++ b). rewrite map_app. split; [auto|].
    apply exec_ptry. eauto 6.
  - intros (tr & -> & H). apply exec_ptry in H as (y & a & b & -> & Hp & Hf). exists y, (map seen a), (map seen b). rewrite map_app. split; [auto|].
    split; [apply H1|apply H2]; eauto.
Qed.
Lemma same_bind {A B} (p : prog A) q (f : A -> prog B) g : same p q -> (forall a, same (f a) (g a)) -> same (pbind p f) (xbind q g).
Proof. intros H1 H2. apply same_try; [auto|]. intros [a|e]; [auto|apply same_Ret]. Qed.
Lemma same_finally {A} (p : prog A) q d d' : same p q -> same d d' -> same (pfinally p d) (xfinally q d').
Proof. intros H1 H2. apply same_try; [auto|]. intros r. apply same_try; [auto|]. intros []; apply same_Ret. Qed.
Lemma same_except {A} (p : prog A) q h h' : same p q -> (forall e, same (h e) (h' e)) -> same (pexcept p h) (xexcept q h').
Proof. intros H1 H2. apply same_try; [auto|]. intros [a|[e|e]]; [apply same_Ret|auto|apply same_Ret]. Qed.
Lemma same_call {T} (e : eff T) : (forall x, seen (observe e x) = XO (observe e x)) -> same (call e) (xcall (Lib e)).
Proof.
  intros He t x. rewrite xexec_call. cbn [xobserve]. split.
  - intros ->. exists [observe e x]. cbn [map]. rewrite He. split; [auto|]. apply exec_call. auto.
  - intros (tr & -> & H). apply exec_call in H as ->. cbn [map]. rewrite He. auto.
Qed.
Lemma same_save code ad c u : same (call (SaveCode code ad c u)) (xcall (SaveDict code (saved_dict ad) c u)).
Proof.
  intros t x. rewrite xexec_call. cbn [xobserve]. split.
  - intros ->. exists [OSaveCode code ad c u x]. split; [reflexivity|]. apply exec_call. reflexivity.
  - intros (tr & -> & H). apply exec_call in H as ->. reflexivity.
Qed.
(** Code of the library that does not save codes *)
Fixpoint nosave {A} (p : prog A) : Prop :=
  match p with Ret _ => True | Do e k => (forall x, seen (observe e x) = XO (observe e x)) /\ forall x, nosave (k x) end.
Lemma same_emb {A} (p : prog A) : nosave p -> same p (emb p).
Proof.
  induction p as [r|T e k IH]; cbn [nosave emb]; [intros _; apply same_Ret|]. intros [He Hk].
  change (same (ptry (call e) k) (xtry (xcall (Lib e)) (fun x => emb (k x)))). apply same_try; [apply same_call; auto|]. auto.
Qed.
Lemma nosave_try {A B} (p : prog A) (f : res A -> prog B) : nosave p -> (forall r, nosave (f r)) -> nosave (ptry p f).
Proof. induction p as [r|T e k IH]; cbn [nosave ptry]; [auto|]. intros [He Hk] Hf. split; auto. Qed.
Lemma nosave_bind {A B} (p : prog A) (f : A -> prog B) : nosave p -> (forall r, nosave (f r)) -> nosave (pbind p f).
Proof. intros H1 H2. apply nosave_try; [auto|]. intros []; [auto|exact I]. Qed.
Ltac nosave := repeat first
  [ exact I
  | match goal with |- nosave (pbind _ _) => apply nosave_bind; [|intros] end
  | match goal with |- nosave (call _) => split; [reflexivity|intros; exact I] end
  | match goal with |- nosave (match ?x with _ => _ end) => destruct x end ].

Section WithEnv.
Variable E : env.

Lemma same_auth l methods r : Forall (fun m => nosave (snd m r)) l ->
  same (authenticate_loop l methods r) (xauthenticate (map (fun m => {| xm_name := fst m; xm_auth := fun r => emb (snd m r) |}) l) methods r).
Proof.
  induction 1 as [|[name m] l Hm _ IH]; cbn [authenticate_loop xauthenticate map]; [apply same_Ret|]. cbn [xm_name xm_auth fst snd] in *.
  destruct (_ && _)%bool; [exact IH|]. apply same_bind; [apply same_emb; auto|]. intros [c|]; [apply same_Ret|exact IH].
Qed.
Lemma same_authenticate methods r : same (authenticate r methods) (xauthenticate (map mc_method library_classes) methods r).
Proof.
  change (map mc_method library_classes) with (map (fun m : str * (request -> prog (option client)) => {| xm_name := fst m; xm_auth := fun r => emb (snd m r) |}) auth_methods).
  apply same_auth. unfold auth_methods. repeat constructor; cbn [snd].
  - unfold auth_basic. nosave.
  - unfold auth_post. nosave.
  - unfold auth_none. nosave.
Qed.
Lemma same_run_token hs : forall c u token data, same (run_token_hooks E hs token c u) (xrun (map (oidc_response E) hs) (fun h token => h token data c u) token).
Proof.
  induction hs as [|h hs IH]; intros c u token data; cbn [run_token_hooks xrun map]; [apply same_Ret|].
  apply same_bind; [|intros upd; apply IH]. unfold oidc_response. apply same_emb. unfold oidc_token_response, generate_id_token. nosave.
Qed.
Lemma run_request hs data ad : validate_authorization_request E hs data = V ad ->
  xrun (map (fun _ => oidc_request) (hk_request hs)) (fun h _ => h data) (authorization_dict ad) = xret (saved_dict ad).
Proof.
  intros H. assert (Hn : ad_nonce ad = nonce_of hs data).
  { unfold validate_authorization_request in H. destruct (arg "code_challenge" data); [|discriminate]. destruct (_ || _)%bool; [discriminate|].
    destruct (match param "code_challenge_method" data with Some m => challenges E m | None => None end); [|discriminate].
    destruct (arg "scope" data); [|discriminate]. destruct (param "redirect_uri" data); [|discriminate]. injection H as <-. reflexivity. }
  unfold nonce_of in Hn. unfold saved_dict. destruct (hk_request hs) as [|h l]; [rewrite Hn; reflexivity|]. rewrite Hn. clear.
  assert (Hd : forall o, dupdate (authorization_dict ad ++ match o with Some n => [(lit "nonce", PStr n)] | None => [] end)
     (match o with Some n => [(lit "nonce", PStr n)] | None => [] end) = authorization_dict ad ++ match o with Some n => [(lit "nonce", PStr n)] | None => [] end).
  { intros []; reflexivity. }
  assert (H0 : forall o, dupdate (authorization_dict ad) (match o with Some n => [(lit "nonce", PStr n)] | None => [] end) = authorization_dict ad ++ match o with Some n => [(lit "nonce", PStr n)] | None => [] end).
  { intros []; reflexivity. }
  cbn [map xrun]. unfold oidc_request at 1, xret at 1. cbn [xbind xtry]. rewrite H0.
  induction l as [|h' l IH]; cbn [map xrun]; [reflexivity|]. unfold oidc_request at 1, xret at 1. cbn [xbind xtry]. rewrite Hd. exact IH.
Qed.
Lemma validate_hooks hs data : validate_authorization_request E no_hooks data =
  match validate_authorization_request E hs data with
  | V ad => V {| ad_challenge := ad_challenge ad; ad_method := ad_method ad; ad_redirect := ad_redirect ad; ad_scopes := ad_scopes ad;
                 ad_state := ad_state ad; ad_nonce := None |}
  | X e => X e
  end.
Proof.
  unfold validate_authorization_request. destruct (arg "code_challenge" data); [|reflexivity]. destruct (_ || _)%bool; [reflexivity|].
  destruct (match param "code_challenge_method" data with Some m => challenges E m | None => None end); [|reflexivity].
  destruct (arg "scope" data); [|reflexivity]. destruct (param "redirect_uri" data); reflexivity.
Qed.
Lemma texts_map l : texts (map PStr l) = V l.
Proof. induction l as [|s l IH]; cbn [map texts]; [reflexivity|]. rewrite IH. reflexivity. Qed.
Lemma saved_scopes ad : scopes_at (saved_dict ad) = V (Some (ad_scopes ad)).
Proof.
  unfold scopes_at. replace (lookup (lit "scopes") (saved_dict ad)) with (Some (PList (map PStr (ad_scopes ad)))) by reflexivity.
  rewrite texts_map. reflexivity.
Qed.
Lemma saved_state ad : state_at (saved_dict ad) = V (ad_state ad).
Proof.
  unfold state_at. replace (lookup (lit "state") (saved_dict ad)) with (Some (match ad_state ad with Some s => PStr s | None => PNone end)) by reflexivity.
  destruct (ad_state ad); reflexivity.
Qed.
Lemma saved_uri ad : text_at "redirect_uri" (saved_dict ad) = V (ad_redirect ad).
Proof. reflexivity. Qed.
Lemma same_authorize cfg hs data c u : same (authorize E cfg hs data c u) (xcode_authorize E cfg (xhooks_of E hs) data c u).
Proof.
  unfold authorize, xcode_authorize, xvalidate_authorization_request. rewrite (validate_hooks hs).
  destruct (validate_authorization_request E hs data) as [ad|e] eqn:Ev; [|apply same_Ret].
  cbn [xbind xtry pbind ptry]. change (authorization_dict _) with (authorization_dict ad). cbn [xhooks_of xh_areq xh_ares].
  rewrite (run_request _ _ _ Ev). unfold xret. cbn [xbind xtry]. rewrite saved_scopes. cbn [xbind xtry]. rewrite saved_state. cbn [xbind xtry].
  destruct (validate_requested_scopes _ _ _ _); [|apply same_Ret].
  apply same_bind; [apply same_call; reflexivity|]. intros code. apply same_bind; [apply same_save|]. intros []. cbn [xrun]. unfold xret. cbn [xbind xtry].
  rewrite saved_uri. cbn [xbind xtry]. apply same_Ret.
Qed.
Lemma same_code_token cfg hs data c : same (code_token E cfg hs data c) (xcode_token E cfg (xhooks_of E hs) data c).
Proof.
  unfold code_token, xcode_token, xvalidate_code_request, code_exchange.
  destruct (validate_code_request data) as [[[code uri] verifier]|e] eqn:Ev.
  - cbn [xbind xtry pbind ptry xhooks_of xh_treq xrun xret].
    assert (Hp : param "code" data = Some code).
    { unfold validate_code_request, arg in Ev. unfold param. destruct (lookup (lit "code") data) as [[|a s]|]; try discriminate.
      destruct (lookup (lit "redirect_uri") data) as [[|b s']|]; try discriminate. destruct (lookup (lit "code_verifier") data) as [[|d s'']|]; try discriminate. injection Ev as <- _ _. reflexivity. }
    rewrite Hp. set (d := [(lit "code", PStr code); (lit "redirect_uri", PStr uri); (lit "code_verifier", PStr verifier)]).
    assert (H1 : text_at "code" d = V code) by reflexivity. assert (H2 : text_at "redirect_uri" d = V uri) by reflexivity.
    assert (H3 : text_at "code_verifier" d = V verifier) by reflexivity. clearbody d.
    unfold xdelete, xcode_exchange. rewrite H1. cbn [xbind xtry]. apply same_finally; [|apply same_call; reflexivity].
    apply same_bind; [apply same_call; reflexivity|]. intros [ac|]; [|apply same_Ret]. rewrite H2, H3. cbn [xbind xtry].
    apply same_bind; [apply same_emb; unfold validate_authorization_code; nosave|]. intros [].
    apply same_bind; [apply same_call; reflexivity|]. intros [u|]; [|apply same_Ret].
    apply same_bind; [apply same_call; reflexivity|]. intros at_.
    apply same_bind; [apply same_emb; unfold maybe_refresh; nosave|]. intros rt. cbn [xhooks_of xh_tres]. apply same_run_token.
  - cbn [xbind xtry pbind ptry]. apply same_finally; [apply same_Ret|]. unfold xdelete.
    destruct (param "code" data); cbn [xbind xtry]; [apply same_call; reflexivity|apply same_Ret].
Qed.
Lemma find_map {A B} (f : A -> B) (q : B -> bool) l : find q (map f l) = option_map f (find (fun x => q (f x)) l).
Proof. induction l as [|a l IH]; cbn [map find]; [reflexivity|]. destruct (q (f a)); [reflexivity|exact IH]. Qed.

Lemma bind_ret_id {A} (f : pdict -> A) (k : A -> res response) p : forall q, same p q ->
  same (pbind p (fun t => Ret (k (f t)))) (xbind (xbind q (fun t => xret (f t))) (fun t => XRet (k t))).
Proof.
  intros q H t x. split.
  - intros Hx. apply xexec_pbind in Hx as [(a & t1 & t2 & -> & H1 & H2)|(e & -> & H1)].
    + apply xexec_pbind in H1 as [(b & t3 & t4 & -> & H3 & H4)|(e & ? & _)]; [|discriminate]. apply xexec_Ret in H4 as [-> [= ->]]. apply xexec_Ret in H2 as [-> ->].
      rewrite !app_nil_r. apply H in H3 as (tr & -> & H3). exists tr. split; [auto|]. apply exec_pbind. left. exists b, tr, []. rewrite app_nil_r. split; [auto|]. split; [auto|]. apply exec_Ret. auto.
    + apply xexec_pbind in H1 as [(b & t3 & t4 & -> & H3 & H4)|(e' & [= <-] & H1)]; [apply xexec_Ret in H4 as [_ ?]; discriminate|].
      apply H in H1 as (tr & -> & H1). exists tr. split; [auto|]. apply exec_pbind. right. eauto.
  - intros (tr & -> & Hx). apply exec_pbind in Hx as [(b & t1 & t2 & -> & H1 & H2)|(e & -> & H1)].
    + apply exec_Ret in H2 as [-> ->]. rewrite app_nil_r. apply xexec_pbind. left. exists (f b), (map seen t1), []. rewrite app_nil_r. split; [auto|]. split; [|apply xexec_Ret; auto].
      apply xexec_pbind. left. exists b, (map seen t1), []. rewrite app_nil_r. split; [auto|]. split; [apply H; eauto|]. apply xexec_Ret. auto.
    + apply xexec_pbind. right. exists e. split; [auto|]. apply xexec_pbind. right. exists e. split; [auto|]. apply H. eauto.
Qed.
Lemma p_same_token p hs r : same (token_endpoint E p hs r) (xtoken_endpoint (xprovider_of E p hs) r).
Proof.
  unfold token_endpoint, xtoken_endpoint. apply same_except; [|intros; apply same_Ret].
  apply same_bind; [apply same_Ret|]. intros [].
  assert (Hg : xvalidate_grant_type (xprovider_of E p hs) (param "grant_type" (rq_data r)) =
    match validate_grant_type p (param "grant_type" (rq_data r)) with V g => V (xgrant_of E (pv_config p) (xhooks_of E hs) g) | X e => X e end).
  { unfold xvalidate_grant_type, validate_grant_type. destruct (param "grant_type" (rq_data r)) as [[|a s]|]; [reflexivity| |reflexivity].
    cbn [xprovider_of xp_grants]. rewrite find_map. cbn [xgrant_of xg_type named]. destruct (find _ (pv_grants p)); reflexivity. }
  rewrite Hg. destruct (validate_grant_type p (param "grant_type" (rq_data r))) as [g|e]; [|apply same_Ret]. cbn [xbind xtry pbind ptry].
  apply same_bind; [apply same_authenticate|]. intros c. cbn [xgrant_of xg_type xg_token].
  replace (existsb (named (Some (grant_type g))) (cl_grants c)) with (ins (grant_type g) (cl_grants c)) by reflexivity.
  destruct (negb _); [apply same_Ret|]. apply bind_ret_id.
  destruct g; cbn [grant_token].
  - apply same_code_token.
  - apply same_emb. unfold cc_token. nosave.
  - apply same_emb. unfold refresh_grant, validate_refresh_token, maybe_refresh. nosave.
Qed.
Lemma p_same_authz p hs r : same (authorization_endpoint E p hs r) (xauthorization_endpoint (xprovider_of E p hs) r).
Proof.
  unfold authorization_endpoint, xauthorization_endpoint. apply same_except; [|intros; apply same_Ret].
  apply same_bind; [apply same_Ret|]. intros [[uri cid] rt]. destruct (rq_user r) as [u|]; [|apply same_Ret].
  assert (Hg : forall state, xvalidate_response_type (xprovider_of E p hs) rt state =
    match validate_response_type p rt state with V g => V (xgrant_of E (pv_config p) (xhooks_of E hs) g) | X e => X e end).
  { intros state. unfold xvalidate_response_type, validate_response_type. cbn [xprovider_of xp_grants]. rewrite find_map. cbn [xgrant_of xg_response]. unfold named.
    destruct (find _ (pv_grants p)); reflexivity. }
  rewrite Hg. destruct (validate_response_type p rt _) as [g|e]; [|apply same_Ret]. cbn [xbind xtry pbind ptry]. cbn [xgrant_of xg_response xg_authorize].
  apply same_bind; [apply same_emb; unfold validate_client; nosave|]. intros c. apply same_bind; [|intros; apply same_Ret].
  destruct g; cbn [grant_authorize]; [apply same_authorize| |]; apply same_Ret.
Qed.
Lemma p_same_revoke p hs r : same (revocation_endpoint r) (xrevocation_endpoint (xprovider_of E p hs) r).
Proof.
  unfold revocation_endpoint, xrevocation_endpoint. apply same_except; [|intros; apply same_bind; [apply same_Ret|intros; apply same_Ret]].
  apply same_bind; [apply same_authenticate|]. intros c. destruct (arg "token" (form r)) as [token|]; [|apply same_Ret].
  assert (H : same (pbind (call (RevokeToken c token (param "token_type_hint" (form r)))) (fun _ => pbind (Ret (JSONResponse 200 [] PNone)) (fun x => ret (Some x))))
    (xbind (xcall (Lib (RevokeToken c token (param "token_type_hint" (form r))))) (fun _ => xbind (XRet (JSONResponse 200 [] PNone)) (fun x => xret (Some x))))).
  { apply same_bind; [apply same_call; reflexivity|]. intros []. apply same_bind; [apply same_Ret|]. intros; apply same_Ret. }
  destruct (arg "token_type_hint" (form r)) as [h|]; [|exact H]. destruct (negb _); [apply same_Ret|exact H].
Qed.
End WithEnv.

(** ** Registration of hooks and loading of authentication methods *)

Lemma p_add_hook pid cls h cp i grants : forall t,
  xadd_hook pid grants cls h t i cp = t i cp ++ (if hc_has h cp then repeat (h, pid) (sharing grants cls i) else []).
Proof.
  unfold xadd_hook, sharing. induction grants as [|g grants IH]; intros t; cbn [fold_left filter].
  - destruct (hc_has h cp); rewrite app_nil_r; reflexivity.
  - rewrite IH. clear IH. destruct (existsb (N.eqb cls) (gc_mro g)) eqn:Ex.
    + destruct (in_dec N.eq_dec cls (gc_mro g)) as [_|n].
      2:{ apply existsb_exists in Ex as (y & Hy & Ey). apply N.eqb_eq in Ey. subst. contradiction. }
      rewrite N.eqb_sym. destruct (gc_table g =? i); cbn [andb]; [|reflexivity]. destruct (hc_has h cp); [|reflexivity].
      cbn [length repeat]. rewrite <- app_assoc. reflexivity.
    + destruct (in_dec N.eq_dec cls (gc_mro g)) as [y|_]; [|reflexivity].
      exfalso. rewrite <- not_true_iff_false in Ex. apply Ex. apply existsb_exists. exists cls. split; [auto|]. apply N.eqb_refl.
Qed.
Lemma p_load classes : load_methods classes =
  if existsb (fun k => match mc_parent k with None => mc_abstract k | Some _ => false end) classes then Err TypeError
  else Ok (map mc_method (filter (fun k => match mc_parent k with None => true | Some _ => false end) classes)).
Proof.
  induction classes as [|k l IH]; cbn [load_methods existsb filter]; [reflexivity|]. destruct (mc_parent k) eqn:Ek; cbn [orb]; [exact IH|].
  destruct (mc_abstract k); cbn [orb]; [reflexivity|]. rewrite IH. destruct (existsb _ l); reflexivity.
Qed.

(** ** Extending a provider *)

Lemma find_app_left {A} (f : A -> bool) l l' a : find f l = Some a -> find f (l ++ l') = Some a.
Proof. induction l as [|b l IH]; cbn [find app]; [discriminate|]. destruct (f b); auto. Qed.
Lemma p_conservative_token p gs r t g : data_has r "grant_type" t -> t <> [] -> chosen xg_type (xp_grants p) t g ->
  xtoken_endpoint (with_grants p gs) r = xtoken_endpoint p r.
Proof.
  intros Hd Ht Hc. unfold xtoken_endpoint. cbn [with_grants xp_methods].
  replace (xvalidate_grant_type (with_grants p gs) (param "grant_type" (rq_data r))) with (xvalidate_grant_type p (param "grant_type" (rq_data r))); [reflexivity|].
  unfold param. rewrite Hd. unfold xvalidate_grant_type. destruct t; [congruence|]. cbn [with_grants xp_grants]. apply find_chosen in Hc.
  rewrite Hc. rewrite (find_app_left _ _ _ _ Hc). reflexivity.
Qed.
Lemma p_conservative_authz p gs r rt g : data_has r "response_type" rt -> chosen xg_response (xp_grants p) rt g ->
  xauthorization_endpoint (with_grants p gs) r = xauthorization_endpoint p r.
Proof.
  intros Hd Hc. unfold xauthorization_endpoint. cbn [with_grants xp_config].
  destruct (validate_request (rq_data r)) as [[[uri cid] rt']|e] eqn:Ev; [|reflexivity].
  assert (rt' = rt). { apply validate_request_V in Ev as (_ & _ & Hr). apply arg_Some in Hr as [Hr _]. unfold data_has in Hd. congruence. } subst rt'.
  cbn [xbind xtry]. destruct (rq_user r) as [u|]; [|reflexivity].
  replace (xvalidate_response_type (with_grants p gs) rt) with (xvalidate_response_type p rt); [reflexivity|].
  unfold xvalidate_response_type. cbn [with_grants xp_grants]. apply find_chosen in Hc. rewrite Hc. rewrite (find_app_left _ _ _ _ Hc). reflexivity.
Qed.
Lemma declined_app methods r l : forall t l' t', declined methods r l t -> declined methods r l' t' -> declined methods r (l ++ l') (t ++ t').
Proof. intros t l' t' H H'. induction H; cbn [app]; [auto|apply declined_skip; auto|]. rewrite <- app_assoc. apply declined_none; auto. Qed.
Lemma decided_app ms ms' methods r t y : decided ms methods r t y -> decided (ms ++ ms') methods r t y.
Proof. intros (l1 & m & l2 & t1 & t2 & -> & -> & H). exists l1, m, (l2 ++ ms'), t1, t2. rewrite <- app_assoc. split; [auto|]. split; [auto|]. exact H. Qed.
Lemma declined_split methods r ms : forall ms' t, declined methods r (ms ++ ms') t -> exists t1 t2, t = t1 ++ t2 /\ declined methods r ms t1 /\ declined methods r ms' t2.
Proof.
  induction ms as [|m ms IH]; intros ms' t H; cbn [app] in H; [exists [], t; split; [auto|]; split; [constructor|auto]|]. inversion H; subst.
  - apply IH in H4 as (t1 & t2 & -> & H5 & H6). exists t1, t2. split; [auto|]. split; [apply declined_skip; auto|auto].
  - apply IH in H5 as (t3 & t4 & -> & H5 & H6). exists (t1 ++ t3), t4. rewrite app_assoc. split; [auto|]. split; [apply declined_none; auto|auto].
Qed.
Lemma decided_split methods r ms : forall ms' t y, decided (ms ++ ms') methods r t y ->
  decided ms methods r t y \/ exists t1 t2, t = t1 ++ t2 /\ declined methods r ms t1 /\ decided ms' methods r t2 y.
Proof.
  induction ms as [|m ms IH]; intros ms' t y H; cbn [app] in H.
  - right. exists [], t. split; [auto|]. split; [constructor|auto].
  - assert (D : allowed_method methods (xm_name m) \/ ~ allowed_method methods (xm_name m)) by (rewrite <- allowed_iff; destruct (_ && _)%bool; [right; discriminate|auto]); destruct D as [Ha|Ha].
    + apply decided_try in H as [H|(t1 & t2 & -> & H1 & H2)]; [| |auto].
      * left. apply decided_try; auto.
      * apply IH in H2 as [H2|(t3 & t4 & -> & H3 & H4)].
        -- left. apply decided_try; [auto|]. right. eauto.
        -- right. exists (t1 ++ t3), t4. rewrite app_assoc. split; [auto|]. split; [apply declined_none; auto|auto].
    + apply decided_skip in H; [|auto]. apply IH in H as [H|(t1 & t2 & -> & H1 & H2)].
      * left. apply decided_skip; auto.
      * right. exists t1, t2. split; [auto|]. split; [apply declined_skip; auto|auto].
Qed.
Lemma p_conservative_methods ms ms' methods r t c : xexec (xauthenticate (ms ++ ms') methods r) t (V c) <->
  xexec (xauthenticate ms methods r) t (V c) \/ exists t1 t2, t = t1 ++ t2 /\ declined methods r ms t1 /\ xexec (xauthenticate ms' methods r) t2 (V c).
Proof.
  rewrite !p_xauth. unfold authenticated. split.
  - intros H. apply decided_split in H as [H|(t1 & t2 & -> & H1 & H2)]; [auto|]. right. exists t1, t2. split; [auto|]. split; [auto|]. apply p_xauth. exact H2.
  - intros [H|(t1 & t2 & -> & H1 & H2)]; [apply decided_app; auto|]. apply p_xauth in H2 as (l1 & m & l2 & t3 & t4 & -> & -> & H3 & H4).
    exists (ms ++ l1), m, l2, (t1 ++ t3), t4. rewrite <- !app_assoc. split; [auto|]. split; [auto|]. split; [apply declined_app; auto|exact H4].
Qed.
