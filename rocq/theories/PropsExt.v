(** Grants, client authentication methods and hooks of an application: C118-C128. *)
From Coq Require Import String Ascii List NArith ZArith Bool.
From Verif Require Import Base BaseFacts SpecCodec Json Url Webtools Prog Http OAuth SpecOAuth Example OAuthRef OAuthWit FlowWit Ext SpecUrl SpecExt ExtFacts ExtHookFacts ExtSimFacts ExtWit.
Import ListNotations.
Open Scope N_scope.

(** C118.  Whatever grants and methods the application adds: the grant runs that is first with the grant type of the
    request, for a client that a method it accepts authenticated and that may use it; its answer, with nothing else,
    is sent as JSON not to be cached. *)
Theorem C118_token_endpoint : forall p r tr x, xexec (xtoken_endpoint p r) tr x ->
  (exists t g c t1 t2 y, data_has r "grant_type" t /\ t <> [] /\ chosen xg_type (xp_grants p) t g /\
     authenticated (xp_methods p) (xg_methods g) r t1 c /\ In t (cl_grants c) /\
     tr = t1 ++ t2 /\ xexec (xg_token g (dremove (lit "grant_type") (rq_data r)) c) t2 y /\ grant_answer y x) \/
  (exists e, grant_answer (X e) x /\
     ((tr = [] /\ forall t g, data_has r "grant_type" t -> t <> [] -> ~ chosen xg_type (xp_grants p) t g) \/
      exists t g, data_has r "grant_type" t /\ t <> [] /\ chosen xg_type (xp_grants p) t g /\
        (refused (xp_methods p) (xg_methods g) r tr e \/
         exists c oe, authenticated (xp_methods p) (xg_methods g) r tr c /\ ~ In t (cl_grants c) /\ e = OA oe /\ oe_kind oe = UnauthorizedClient))).
Proof. exact p_xtoken. Qed.
Print Assumptions C118_token_endpoint.
(** And it does run. *)
Theorem C118_complete : forall p r t g c t1 t2 y, data_has r "grant_type" t -> t <> [] -> chosen xg_type (xp_grants p) t g ->
  authenticated (xp_methods p) (xg_methods g) r t1 c -> In t (cl_grants c) ->
  xexec (xg_token g (dremove (lit "grant_type") (rq_data r)) c) t2 y ->
  exists x, xexec (xtoken_endpoint p r) (t1 ++ t2) x /\ grant_answer y x.
Proof. exact p_xtoken_complete. Qed.
Print Assumptions C118_complete.
Example C118_example : data_has device_req "grant_type" device_type /\ device_type <> [] /\ chosen xg_type (xp_grants app_provider) device_type device /\
  authenticated (xp_methods app_provider) (xg_methods device) device_req [XO (OFindClient (lit "tv") (V (Some tv)))] tv /\ In device_type (cl_grants tv) /\
  xexec (xg_token device (dremove (lit "grant_type") (rq_data device_req)) tv) [XOther (lit "poll") (V (PStr (lit "granted")))]
    (V (PDict [(lit "access_token", PStr (lit "granted")); (lit "token_type", PStr (lit "Bearer"))])) /\
  exists x, xexec (xtoken_endpoint app_provider device_req) device_trace (V x) /\ rs_status x = 200 /\
    rs_body x = lit "{""access_token"": ""granted"", ""token_type"": ""Bearer""}".
Proof.
  split; [wit|]. split; [discriminate|]. split; [exact device_chosen|]. split; [exact device_authenticated|]. split; [left; reflexivity|].
  split; [apply (xgo_at world); wit|exact device_run].
Qed.

(** C119.  The method that authenticates is the first accepted one that does not decline; its refusal, also by an
    exception of Python, is final; and when all decline, the answer is invalid_client. *)
Theorem C119_authentication : forall ms methods r tr x, xexec (xauthenticate ms methods r) tr x <->
  match x with V c => authenticated ms methods r tr c | X e => refused ms methods r tr e end.
Proof. exact p_xauth. Qed.
Print Assumptions C119_authentication.
Example C119_example : authenticated (xp_methods app_provider) (xg_methods device) device_req [XO (OFindClient (lit "tv") (V (Some tv)))] tv /\
  exists e, refused (xp_methods app_provider) (xg_methods device) (token_req [] [(lit "grant_type", device_type); L "device_code" "d1"]) [] (OA e) /\
    oe_kind e = InvalidClient.
Proof. split; [exact device_authenticated|exact device_refused]. Qed.

(** C120.  Likewise at the authorization endpoint: the grant that is first with the response type runs, for a user who is
    logged in and a client that has registered the redirect URI and the response type; where it redirects to is followed, and
    its errors are sent to that redirect URI or to the error page. *)
Theorem C120_authorization_endpoint : forall p r tr x, xexec (xauthorization_endpoint p r) tr x ->
  (exists u uri cid rt g c t y, rq_user r = Some u /\ data_has r "redirect_uri" uri /\ data_has r "client_id" cid /\ data_has r "response_type" rt /\ rt <> [] /\
     chosen xg_response (xp_grants p) rt g /\ In uri (cl_redirects c) /\ In rt (cl_responses c) /\
     tr = XO (OFindClient cid (V (Some c))) :: t /\ xexec (xg_authorize g (dremove (lit "response_type") (rq_data r)) c u) t y /\
     redirect_answer (xp_config p) uri y x) \/
  (exists uri e, (data_has r "redirect_uri" uri \/ exists oe code, e = OA oe /\ oe_kind oe = Fatal code) /\ redirect_answer (xp_config p) uri (X e) x /\
     (tr = [] \/ exists cid y, data_has r "client_id" cid /\ tr = [XO (OFindClient cid y)] /\
        forall c rt, y = V (Some c) -> data_has r "response_type" rt -> ~ (In uri (cl_redirects c) /\ In rt (cl_responses c)))).
Proof. exact p_xauthz. Qed.
Print Assumptions C120_authorization_endpoint.
Theorem C120_complete : forall p r u uri cid rt g c t y, rq_user r = Some u -> data_has r "redirect_uri" uri -> uri <> [] -> data_has r "client_id" cid -> cid <> [] ->
  data_has r "response_type" rt -> rt <> [] -> chosen xg_response (xp_grants p) rt g -> In uri (cl_redirects c) -> In rt (cl_responses c) ->
  xexec (xg_authorize g (dremove (lit "response_type") (rq_data r)) c u) t y ->
  exists x, xexec (xauthorization_endpoint p r) (XO (OFindClient cid (V (Some c))) :: t) x /\ redirect_answer (xp_config p) uri y x.
Proof. exact p_xauthz_complete. Qed.
Print Assumptions C120_complete.
Example C120_example : rq_user implicit_req = Some alice /\ data_has implicit_req "redirect_uri" cb /\ cb <> [] /\ data_has implicit_req "client_id" (lit "tv") /\ lit "tv" <> [] /\
  data_has implicit_req "response_type" (lit "token") /\ chosen xg_response (xp_grants app_provider) (lit "token") device /\
  In cb (cl_redirects tv) /\ In (lit "token") (cl_responses tv) /\
  exists x, xexec (xauthorization_endpoint app_provider implicit_req) implicit_trace (V x) /\ rs_status x = 303 /\
    lookup (lit "Location") (rs_headers x) = Some (PStr (lit "https://c.example/cb?done=1")).
Proof.
  split; [wit|]. split; [wit|]. split; [discriminate|]. split; [wit|]. split; [discriminate|]. split; [wit|]. split; [exact device_response|].
  split; [left; reflexivity|]. split; [left; reflexivity|exact implicit_run].
Qed.

(** C121.  Whatever hooks there are, a code is saved once, with the members of the request as the hooks changed them, in
    turn and the last one counting; the scopes after the hooks are supported and allowed; and the response has the code
    and the state, as the response hooks changed them. *)
Theorem C121_authorize_hooks : forall E cfg hs data c u t url, xexec (xcode_authorize E cfg hs data c u) t (V url) ->
  exists base us d code state t1 t2 us' resp uri, authorization_members data base /\
    chain (fun h _ => h data) (xh_areq hs) base t1 us /\ updated base us d /\
    t = t1 ++ XO (OSecretToken 64 (V code)) :: XSave code d c u (V tt) :: t2 /\
    (lookup (lit "scopes") d = Some PNone \/
     exists l, lookup (lit "scopes") d = Some (PList (map PStr l)) /\ incl l (cf_scopes cfg) /\ incl l (cl_allowed c (Some l))) /\
    (lookup (lit "state") d = Some state \/ lookup (lit "state") d = None /\ state = PNone) /\
    chain (fun h _ => h code d c u) (xh_ares hs) [(lit "code", PStr code); (lit "state", state)] t2 us' /\
    updated [(lit "code", PStr code); (lit "state", state)] us' resp /\
    member d "redirect_uri" uri /\ url_with uri resp url.
Proof. exact p_xauthorize. Qed.
Print Assumptions C121_authorize_hooks.
Example C121_example : xexec (xcode_authorize ref_env ref_config app_hooks tv_items tv alice)
    [XO (OSecretToken 64 (V (lit "c1"))); XSave (lit "c1") tv_saved tv alice (V tt)] (V hooked_url) /\
  lookup (lit "scope") tv_items = Some (lit "openid email") /\ lookup (lit "scopes") tv_saved = Some (PList [PStr (lit "openid")]) /\
  lookup (lit "audience") tv_saved = Some (PStr (lit "api")) /\ length (xh_areq app_hooks) = 1%nat.
Proof. split; [exact hooked_authorize|]. split; [reflexivity|]. split; [reflexivity|]. split; reflexivity. Qed.

(** C122.  Whatever hooks there are, the tokens of an exchange are for the user and scopes of an unexpired code that is
    bound to the client, to the redirect URI and to the verifier that the token request hooks left, and the code looked up is
    deleted in the end. *)
Theorem C122_exchange : forall E cfg hs data c t token, (forall b, bytes_ok (e_sha256 E b)) -> xexec (xcode_token E cfg hs data c) t (V token) ->
  exists base us d t1 code ac uri verifier now off exp u at_ rt tr tok t2 us',
    exchange_members data base /\ chain (fun h _ => h data) (xh_treq hs) base t1 us /\ updated base us d /\
    member d "code" code /\ member d "redirect_uri" uri /\ member d "code_verifier" verifier /\
    In uri (cl_redirects c) /\ ac_client ac = cl_id c /\ ac_redirect ac = uri /\ pkce_ok (e_sha256 E) (ac_method ac) (ac_challenge ac) verifier /\
    ac_exp ac = Naive exp /\ (now < exp)%Z /\
    (if in_dec (list_eq_dec N.eq_dec) (lit "refresh_token") (cl_grants c) then tr = [OCreateRT c (OwnUser u) (ac_scopes ac) (V rt)] else tr = [] /\ rt = None) /\
    token_members (cf_token_lifespan cfg) at_ rt (ac_scopes ac) tok /\
    chain (fun h token => h token d c u) (xh_tres hs) tok t2 us' /\ updated tok us' token /\
    t = t1 ++ [XO (OGetCode code (V (Some ac))); XO (ONow (V (now, off))); XO (OFindUser (ac_user ac) (V (Some u)));
               XO (OCreateAT c (OwnUser u) (ac_scopes ac) (V at_))] ++ map XO tr ++ t2 ++ [XO (ODeleteCode code (V tt))].
Proof. exact p_exchange. Qed.
Print Assumptions C122_exchange.
(** However an exchange ends, its last call deletes the code that was looked up, or that of the request when it ended before
    that; unless a hook put something into its place that is not a text. *)
Theorem C122_deleted : forall E cfg hs data c t x code, (forall b, bytes_ok (e_sha256 E b)) -> xexec (xcode_token E cfg hs data c) t x -> lookup (lit "code") data = Some code ->
  (exists t0 k y, t = t0 ++ [XO (ODeleteCode k y)] /\ (forall e, y = X e -> x = X e) /\
     (k = code /\ (exists e, x = X e) \/
      exists base us d t1 t2 z, exchange_members data base /\ chain (fun h _ => h data) (xh_treq hs) base t1 us /\ updated base us d /\ member d "code" k /\
        t0 = t1 ++ XO (OGetCode k z) :: t2)) \/
  (exists base us d, exchange_members data base /\ chain (fun h _ => h data) (xh_treq hs) base t us /\ updated base us d /\ (forall s, ~ member d "code" s) /\ exists e, x = X (Py e)).
Proof. exact p_deleted. Qed.
Print Assumptions C122_deleted.
(** When no hook replaces the code, it is always that of the request. *)
Theorem C122_request_code : forall E cfg hs data c t x code, (forall b, bytes_ok (e_sha256 E b)) -> xexec (xcode_token E cfg hs data c) t x -> lookup (lit "code") data = Some code ->
  (forall h, In h (xh_treq hs) -> forall t u, xexec (h data) t (V u) -> lookup (lit "code") u = None) ->
  exists t0 y, t = t0 ++ [XO (ODeleteCode code y)] /\ forall e, y = X e -> x = X e.
Proof. exact p_request_deleted. Qed.
Print Assumptions C122_request_code.
Example C122_example : (forall b, bytes_ok (e_sha256 ref_env b)) /\
  xexec (xcode_token ref_env ref_config app_hooks (wrapped_items "w-c1") tv) exchange_trace (V hooked_token) /\ lookup (lit "code") (wrapped_items "w-c1") = Some (lit "w-c1") /\
  xexec (xcode_token ref_env ref_config app_hooks (wrapped_items "c1") tv) exchange_trace (V hooked_token) /\ lookup (lit "code") (wrapped_items "c1") = Some (lit "c1") /\
  (forall h, In h (xh_treq app_hooks) -> forall t u, xexec (h (wrapped_items "c1")) t (V u) -> lookup (lit "code") u = None) /\
  lookup (lit "audit") hooked_token = Some (PStr (lit "granted")).
Proof.
  split; [exact ref_sha|]. split; [exact hooked_exchange|]. split; [reflexivity|]. split; [exact plain_exchange|]. split; [reflexivity|].
  split; [exact app_keeps_code|reflexivity].
Qed.

(** C123.  Adding a hook adds as many objects of it to a table of hooks, at each checkpoint it has a method for, as grants
    of the provider are instances of the class and have that table. *)
Theorem C123_registration : forall pid cls h cp i grants t,
  xadd_hook pid grants cls h t i cp = t i cp ++ (if hc_has h cp then repeat (h, pid) (sharing grants cls i) else []).
Proof. exact p_add_hook. Qed.
Print Assumptions C123_registration.
(** Refuted: a hook of a grant class does run in other grants, those that do not assign a table of their own. *)
Theorem C123_isolation_refuted : exists pid grants cls h t g cp, In g grants /\ ~ In cls (gc_mro g) /\
  hooks_run (xadd_hook pid grants cls h t) g cp <> hooks_run t g cp.
Proof.
  exists 1, [code_cls; device_cls], 1, audit_cls, no_tables, device_cls, TokenResponse. split; [right; left; reflexivity|].
  split; [intros [H|[H|[]]]; discriminate H|discriminate].
Qed.
Print Assumptions C123_isolation_refuted.
Example C123_example : sharing [code_cls; device_cls; own_cls] 1 0 = 1%nat /\ sharing [code_cls; device_cls; own_cls] 0 0 = 2%nat /\
  sharing [code_cls; device_cls; own_cls] 1 8 = 0%nat /\ hooks_run (xadd_hook 1 [code_cls; own_cls] 1 audit_cls no_tables) own_cls TokenResponse = [] /\
  hooks_run (xadd_hook 1 [code_cls; own_cls] 1 audit_cls no_tables) code_cls TokenResponse = [(audit_cls, 1)].
Proof. repeat split. Qed.

(** C124.  A provider knows the methods of the classes derived directly from BaseAuthentication, in the order of their
    definition; one of these that is abstract makes the provider fail. *)
Theorem C124_methods : forall classes, load_methods classes =
  if existsb (fun k => match mc_parent k with None => mc_abstract k | Some _ => false end) classes then Err TypeError
  else Ok (map mc_method (filter (fun k => match mc_parent k with None => true | Some _ => false end) classes)).
Proof. exact p_load. Qed.
Print Assumptions C124_methods.
(** Refuted: not every concrete class is used. *)
Theorem C124_every_class_refuted : exists classes k l, In k classes /\ mc_abstract k = false /\ load_methods classes = Ok l /\
  forall m, In m l -> xm_name m <> xm_name (mc_method k).
Proof.
  exists (library_classes ++ [fixed_key]), fixed_key. eexists. split; [right; right; right; left; reflexivity|]. split; [reflexivity|]. split; [reflexivity|].
  intros m Hm. cbn [map In] in Hm. destruct Hm as [<-|[<-|[<-|[]]]]; discriminate.
Qed.
Print Assumptions C124_every_class_refuted.
Example C124_example : load_methods (library_classes ++ [api_cls]) = Ok (xp_methods app_provider) /\ load_methods (library_classes ++ [draft_cls]) = Err TypeError.
Proof. split; reflexivity. Qed.

(** C125 is refuted: hooks of the refresh token and client credentials grants never run. *)
Theorem C125_other_hooks_refuted : forall E cfg hs g data c t x n y, g <> GCode -> xexec (xg_token (xgrant_of E cfg hs g) data c) t x -> ~ In (XOther n y) t.
Proof. exact p_never. Qed.
Print Assumptions C125_other_hooks_refuted.
Example C125_example : GRefresh <> GCode /\ (exists h, In h (xh_tres app_hooks) /\ xexec (h [] [] tv alice) [XOther (lit "audit") (V PNone)] (V [(lit "audit", PNone)])) /\
  exists t v, xexec (xg_token (xgrant_of ref_env ref_config app_hooks GRefresh) refresh_items tv) t (V v) /\ length t = 4%nat.
Proof.
  split; [discriminate|]. split.
  - eexists. split; [left; reflexivity|]. eexists. eexists. split; [reflexivity|]. split; reflexivity.
  - eexists. eexists. split; [exact refresh_run|reflexivity].
Qed.

(** C126.  The endpoints of OAuth.v are those here with the grants, methods and hooks of the library. *)
Theorem C126_token : forall E p hs r, same (token_endpoint E p hs r) (xtoken_endpoint (xprovider_of E p hs) r).
Proof. exact p_same_token. Qed.
Print Assumptions C126_token.
Theorem C126_authorization : forall E p hs r, same (authorization_endpoint E p hs r) (xauthorization_endpoint (xprovider_of E p hs) r).
Proof. exact p_same_authz. Qed.
Print Assumptions C126_authorization.
Theorem C126_revocation : forall E p hs r, same (revocation_endpoint r) (xrevocation_endpoint (xprovider_of E p hs) r).
Proof. exact p_same_revoke. Qed.
Print Assumptions C126_revocation.
Example C126_example : exec (authorization_endpoint ref_env prov oidc authz_req) (trace_of run1) (result_of run1) /\
  xexec (xauthorization_endpoint (xprovider_of ref_env prov oidc) authz_req) (map seen (trace_of run1)) (result_of run1) /\
  existsb (fun o => match o with XSave _ d _ _ _ => match lookup (lit "nonce") d with Some _ => true | None => false end | _ => false end) (map seen (trace_of run1)) = true.
Proof.
  assert (H : exec (authorization_endpoint ref_env prov oidc authz_req) (trace_of run1) (result_of run1)) by apply go_exec.
  split; [exact H|]. split; [apply p_same_authz; exists (trace_of run1); split; [reflexivity|exact H]|wit].
Qed.

(** C127.  Whatever methods there are that do not revoke tokens themselves, a token is revoked for the client that one of
    them authenticated, and it is that of the form. *)
Theorem C127_revocation : forall p r tr x c token hint y, xexec (xrevocation_endpoint p r) tr x -> In (XO (ORevokeToken c token hint y)) tr ->
  (forall m t z, In m (xp_methods p) -> xexec (xm_auth m r) t z -> ~ In (XO (ORevokeToken c token hint y)) t) ->
  exists t, tr = t ++ [XO (ORevokeToken c token hint y)] /\ authenticated (xp_methods p) [] r t c /\ form_has r "token" token /\ token <> [] /\
    hint = lookup (lit "token_type_hint") (form r).
Proof. exact p_xrevoke. Qed.
Print Assumptions C127_revocation.
Example C127_example : exists x, xexec (xrevocation_endpoint {| xp_config := ref_config; xp_grants := []; xp_methods := [api_key] |}
    (token_req [(lit "X-Api-Key", PStr (lit "tv"))] [L "token" "at1"]))
    [XO (OFindClient (lit "tv") (V (Some tv))); XO (ORevokeToken tv (lit "at1") None (V tt))] (V (Some x)) /\ rs_status x = 200.
Proof. eexists. split; [apply (xgo_at world); wit|reflexivity]. Qed.

(** C128.  Adding grants to a provider changes nothing for requests that have a type which it knows, and adding methods
    nothing for requests that its own methods authenticate. *)
Theorem C128_grants_token : forall p gs r t g, data_has r "grant_type" t -> t <> [] -> chosen xg_type (xp_grants p) t g ->
  xtoken_endpoint (with_grants p gs) r = xtoken_endpoint p r.
Proof. exact p_conservative_token. Qed.
Print Assumptions C128_grants_token.
Theorem C128_grants_authorization : forall p gs r rt g, data_has r "response_type" rt -> chosen xg_response (xp_grants p) rt g ->
  xauthorization_endpoint (with_grants p gs) r = xauthorization_endpoint p r.
Proof. exact p_conservative_authz. Qed.
Print Assumptions C128_grants_authorization.
Theorem C128_methods : forall ms ms' methods r t c, xexec (xauthenticate (ms ++ ms') methods r) t (V c) <->
  xexec (xauthenticate ms methods r) t (V c) \/ exists t1 t2, t = t1 ++ t2 /\ declined methods r ms t1 /\ xexec (xauthenticate ms' methods r) t2 (V c).
Proof. exact p_conservative_methods. Qed.
Print Assumptions C128_methods.
Example C128_example : data_has (code_req the_code) "grant_type" (lit "authorization_code") /\ lit "authorization_code" <> [] /\
  chosen xg_type (xp_grants (xprovider_of ref_env prov oidc)) (lit "authorization_code") (xgrant_of ref_env ref_config (xhooks_of ref_env oidc) GCode) /\
  xexec (xauthenticate (map mc_method library_classes ++ [api_key]) (xg_methods device) device_req) [XO (OFindClient (lit "tv") (V (Some tv)))] (V tv).
Proof.
  split; [wit|]. split; [discriminate|]. split.
  - exists [], (map (xgrant_of ref_env ref_config (xhooks_of ref_env oidc)) [GClientCredentials; GRefresh]). split; [reflexivity|]. split; [reflexivity|]. intros h [].
  - apply (xgo_at world). wit.
Qed.
