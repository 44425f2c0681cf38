(** The properties of requests, client authentication and the authorization endpoint: C42-C48, C69 and C71. *)
From Coq Require Import String Ascii List NArith ZArith Bool.
From Verif Require Import Base SpecCodec SpecKey Utf8 Base64 Json Url Webtools Crypto RefCrypto Jwk Jws SpecJws JwsRef Jwt SpecJwt Prog Http OAuth SpecOAuth SpecHistory Example ExampleFacts OAuthRef OAuthFacts RequestFacts AuthzFacts TokenFacts ResponseFacts IssueFacts RaiseFacts IdTokenFacts HistoryFacts StoreFacts OAuthWit OAuthEx HistoryWit SpecReaders HeaderFacts FormAllFacts ReadOAuthFacts.
Import ListNotations.
Open Scope N_scope.
(** C42.  Soundness: a client that authentication returns was looked up under a name given in the request, with
    its credentials, by the method it is registered for and that the grant accepts. *)
Theorem C42_authentication_sound : forall r methods tr c, exec (authenticate r methods) tr (V c) ->
  exists i, tr = [OFindClient i (V (Some c))] /\ authenticates r i c /\ allowed_method methods (cl_auth_method c).
Proof. exact p_authenticate_sound. Qed.
Print Assumptions C42_authentication_sound.
(** Completeness: a request with the credentials of a client is authenticated. *)
Theorem C42_authentication_complete : forall r i c methods, presents r i c -> allowed_method methods (cl_auth_method c) ->
  exec (authenticate r methods) [OFindClient i (V (Some c))] (V c).
Proof. exact p_authenticate_complete. Qed.
Print Assumptions C42_authentication_complete.
Example C42_example :
  exec (authenticate (code_req the_code) []) [OFindClient (lit "web") (V (Some web))] (V web) /\
  result_of (go (authenticate (cc_req []) []) world0) = V post /\
  result_of (go (authenticate (token_req [] [L "client_id" "app"]) []) world0) = V app /\
  (exists e, result_of (go (authenticate (token_req (basic "web" "guess") []) []) world0) = X (OA e)) /\
  (exists e, result_of (go (authenticate (token_req [] [L "client_id" "web"]) []) world0) = X (OA e)) /\
  (exists e, result_of (go (authenticate (token_req (basic "post" "hush") []) []) world0) = X (OA e)) /\
  exists e, result_of (go (authenticate (token_req [] [L "client_id" "app"]) [lit "client_secret_basic"; lit "client_secret_post"]) world0) = X (OA e).
Proof.
  split; [apply (go_at _ world0); wit|]. split; [wit|]. split; [wit|]. split; [eexists; wit|]. split; [eexists; wit|]. split; [eexists; wit|]. eexists; wit.
Qed.

(** C43 is refuted: the first method that applies wins and the others are not looked at. *)
Theorem C43_two_methods_refuted : exists r i s i' s', basic_header (rq_headers r) i s /\ form_has r "client_id" i' /\ form_has r "client_secret" s' /\ i <> i' /\
  exec (authenticate r []) [OFindClient i (V (Some web))] (V web).
Proof. exact p_two_methods. Qed.
Print Assumptions C43_two_methods_refuted.
Theorem C43_basic_first_partial : forall r tr x i s, basic_header (rq_headers r) i s -> exec (authenticate r []) tr x ->
  exists oc, tr = [OFindClient i oc] /\ forall c, x = V c -> oc = V (Some c) /\ cl_secret c = Some s /\ cl_auth_method c = lit "client_secret_basic".
Proof. exact p_basic_precedence. Qed.
Print Assumptions C43_basic_first_partial.
Example C43_example : basic_header (rq_headers two_methods) (lit "web") (lit "s3cret") /\
  exec (authenticate two_methods []) [OFindClient (lit "web") (V (Some web))] (V web).
Proof. exact (conj (proj1 two_methods_accepted) (proj2 (proj2 (proj2 two_methods_accepted)))). Qed.

(** C44.  The two programs are equal: they make the same calls and give the same results. *)
Theorem C44_not_from_url : forall m u1 u2 h b usr r1 r2 methods, make_request m u1 h b usr = Ok r1 -> make_request m u2 h b usr = Ok r2 -> authenticate r1 methods = authenticate r2 methods.
Proof. exact p_auth_not_url. Qed.
Print Assumptions C44_not_from_url.
Example C44_example :
  let in_url (u : string) := req "POST" (lit u) [] (Some (lit "grant_type=client_credentials")) None in
  lookup (lit "client_secret") (rq_data (in_url "https://op.example/token?client_id=post&client_secret=hush"%string)) = Some (lit "hush") /\
  (exists e, result_of (go (authenticate (in_url "https://op.example/token?client_id=post&client_secret=hush"%string) []) world0) = X (OA e)) /\
  exists e, result_of (go (authenticate (in_url "https://op.example/token"%string) []) world0) = X (OA e).
Proof. split; [wit|]. split; eexists; wit. Qed.

(** C45.  A code is stored only as follows ... *)
Theorem C45_code_saved : forall E p hs r tr x code ad c u y, exec (authorization_endpoint E p hs r) tr x -> In (OSaveCode code ad c u y) tr ->
  exists cid uri, tr = [OFindClient cid (V (Some c)); OSecretToken 64 (V code); OSaveCode code ad c u y] /\
    rq_user r = Some u /\ data_has r "client_id" cid /\ data_has r "redirect_uri" uri /\ In uri (cl_redirects c) /\
    ad_redirect ad = uri /\ ad_state ad = lookup (lit "state") (rq_data r) /\
    data_has r "response_type" (lit "code") /\ In GCode (pv_grants p) /\ In (lit "code") (cl_responses c).
Proof. exact p_code_saved. Qed.
Print Assumptions C45_code_saved.
(** ... and the response sends to this redirect URI the code and the state; otherwise it has no code. *)
Theorem C45_code_sent : forall E p hs r tr x, exec (authorization_endpoint E p hs r) tr (V x) -> made r -> no_oauth_raise tr -> tokens_ok tr ->
  exists uri ps, redirects x uri ps /\
    (forall code, In (lit "code", code) ps -> exists ad c u, In (OSaveCode code ad c u (V tt)) tr /\ ad_redirect ad = uri) /\
    (forall code ad c u y, In (OSaveCode code ad c u y) tr -> ad_redirect ad = uri /\ ps = (lit "code", code) :: state_params (lookup (lit "state") (rq_data r))).
Proof. exact p_code_sent. Qed.
Print Assumptions C45_code_sent.
Example C45_example : made authz_req /\ exec (authorization_endpoint ref_env prov oidc authz_req) (trace_of run1) (result_of run1) /\
  names (trace_of run1) = ["find_client"; "secret_token"; "save_authorization_code"]%string /\
  location_of (result_of run1) = PStr (lit "https://c.example/cb?code=tok1&state=x+y") /\
  names (trace_of (run_authz authz_items None)) = [] /\
  location_of (result_of (run_authz (filter (fun kv => negb (eqs (fst kv) (lit "redirect_uri"))) authz_items ++ [L "redirect_uri" "https://evil.example/"]) (Some alice))) =
    PStr (lit "/error?error=invalid_request&error_description=Invalid+Redirect+URI.").
Proof. split; [exact authz_made|]. split; [exact run1_exec|]. wits. Qed.

(** C46 is refuted: without a user, or with an unsupported response type, the user agent is sent to the redirect URI
    of the request before any client has been looked up. *)
Theorem C46_open_redirect_refuted : exists evil,
  (forall c, In c (st_clients store0) -> ~ In evil (cl_redirects c)) /\
  (exists r x q, made r /\ rq_user r = None /\ exec (authorization_endpoint ref_env prov oidc r) [] (V x) /\ sends x evil q) /\
  (exists r x q, made r /\ rq_user r = Some alice /\ exec (authorization_endpoint ref_env prov oidc r) [] (V x) /\ sends x evil q).
Proof. exact p_open_redirect. Qed.
Print Assumptions C46_open_redirect_refuted.
(** With a user and a supported response type it holds. *)
Theorem C46_no_open_redirect_partial : forall E p hs r tr x u, exec (authorization_endpoint E p hs r) tr (V x) -> made r ->
  rq_user r = Some u -> data_has r "response_type" (lit "code") -> In GCode (pv_grants p) ->
  (forall cid e, ~ In (OFindClient cid (X (OA e))) tr) ->
  (exists q, sends x (cf_error_url (pv_config p)) q) \/
  exists cid uri c q, In (OFindClient cid (V (Some c))) tr /\ data_has r "client_id" cid /\ data_has r "redirect_uri" uri /\
    In uri (cl_redirects c) /\ sends x uri q.
Proof. exact p_no_open_redirect. Qed.
Print Assumptions C46_no_open_redirect_partial.
Example C46_example : rq_user authz_req = Some alice /\ data_has authz_req "response_type" (lit "code") /\
  location_of (result_of (run_authz (firstn 3 authz_items) (Some alice))) =
    PStr (lit "https://c.example/cb?error=invalid_request&error_description=Invalid+code+challenge.").
Proof. wits. Qed.

(** C47 is refuted: AccessDenied, raised when there is no user, and the error for a missing scope of the consent data carry no state. *)
Theorem C47_state_dropped_refuted :
  (exists r x q, made r /\ data_has r "state" (lit "x y") /\ data_has r "redirect_uri" cb /\ data_has r "client_id" (cl_id web) /\ In cb (cl_redirects web) /\
     exec (authorization_endpoint ref_env prov oidc r) [] (V x) /\ sends x cb q /\ SpecUrl.query_text [L "error" "access_denied"] q) /\
  (exists r x q, made r /\ data_has r "state" (lit "s1") /\
     exec (get_consent_data prov r) [OFindClient (lit "web") (V (Some web))] (V (ConsentRedirect x)) /\ sends x cb q /\
     SpecUrl.query_text [L "error" "invalid_request"; L "error_description" "Missing required parameter ""scope""."] q).
Proof. exact (conj wit_state_dropped consent_drops_state). Qed.
Print Assumptions C47_state_dropped_refuted.
(** With a user, and with a scope, it holds. *)
Theorem C47_state_partial : forall E p hs r tr x u, exec (authorization_endpoint E p hs r) tr (V x) -> made r ->
  rq_user r = Some u -> no_oauth_raise tr -> tokens_ok tr ->
  exists uri ps, redirects x uri ps /\
    (uri = cf_error_url (pv_config p) \/ (data_has r "redirect_uri" uri /\ forall v, In (lit "state", v) ps <-> data_has r "state" v)).
Proof. exact p_state. Qed.
Print Assumptions C47_state_partial.
Theorem C47_state_consent_partial : forall p r tr x s, exec (get_consent_data p r) tr (V (ConsentRedirect x)) -> made r ->
  data_has r "scope" s -> no_oauth_raise tr ->
  exists uri ps, redirects x uri ps /\
    (uri = cf_error_url (pv_config p) \/ (data_has r "redirect_uri" uri /\ forall v, In (lit "state", v) ps <-> data_has r "state" v)).
Proof. exact p_state_consent. Qed.
Print Assumptions C47_state_consent_partial.
Example C47_example : data_has authz_req "state" (lit "x y") /\
  location_of (result_of run1) = PStr (lit "https://c.example/cb?code=tok1&state=x+y") /\
  location_of (result_of (run_authz (firstn 5 authz_items) (Some alice))) =
    PStr (lit "https://c.example/cb?error=invalid_request&error_description=Invalid+code+challenge.&state=x+y").
Proof. wits. Qed.

(** C48 *)
Theorem C48_scopes : forall E p hs r tr x code ad c u y, exec (authorization_endpoint E p hs r) tr x -> In (OSaveCode code ad c u y) tr ->
  (forall s, In s (ad_scopes ad) <-> requested r s) /\
  (forall s, In s (ad_scopes ad) -> In s (cf_scopes (pv_config p)) /\ In s (cl_allowed c (Some (ad_scopes ad)))).
Proof. exact p_saved_scopes. Qed.
Print Assumptions C48_scopes.
Example C48_example : exec (authorization_endpoint ref_env prov oidc authz_req) (trace_of run1) (result_of run1) /\
  (exists ad, In (OSaveCode the_code ad web alice (V tt)) (trace_of run1) /\ ad_scopes ad = [lit "openid"; lit "email"]) /\
  location_of (result_of (run_authz (L "scope" "openid admin" :: filter (fun kv => negb (eqs (fst kv) (lit "scope"))) authz_items) (Some alice))) =
    PStr (lit "https://c.example/cb?error=invalid_scope&error_description=Unsupported+scope+%22admin%22.&state=x+y").
Proof.
  split; [exact run1_exec|]. split; [|wit]. exists run1_data. split; [apply nth_error_In with (n := 2%nat); wit|wit].
Qed.

(** C69.  Which requests exist, and which parameters they have: those of the body, and where the body is silent those of the query. *)
Theorem C69_request_iff : forall m url h b usr r, (forall x, b = Some x -> bytes_ok x) ->
  (make_request m url h b usr = Ok r <->
   exists u q lq lb, (same_letters m (chars "get") \/ same_letters m (chars "post")) /\ cleaned url u /\ brackets_match u /\
     query_text u q /\ form_all q lq /\ body_pairs b lb /\
     rq_method r = m /\ rq_url r = url /\ rq_user r = usr /\ rq_body r = b /\
     rq_headers r = merged (map (fun kv => (lowered (fst kv), snd kv)) h) /\ rq_data r = merged (lq ++ lb)).
Proof. exact request_iff. Qed.
Print Assumptions C69_request_iff.
Theorem C69_request_error_iff : forall m url h b usr e, make_request m url h b usr = Err e <->
  (e = RuntimeError /\ ~ (same_letters m (chars "get") \/ same_letters m (chars "post"))) \/
  (e = ValueError /\ (same_letters m (chars "get") \/ same_letters m (chars "post")) /\ exists u, cleaned url u /\ ~ brackets_match u).
Proof. exact request_error. Qed.
Print Assumptions C69_request_error_iff.
Theorem C69_parameters : forall m u items1 items2 h usr, url_clean u -> brackets_match u -> (same_letters m (chars "get") \/ same_letters m (chars "post")) ->
  NoDup (keys items1) -> NoDup (keys items2) ->
  Forall (fun kv => scalar_str (fst kv) /\ scalar_str (snd kv) /\ snd kv <> []) items1 ->
  Forall (fun kv => scalar_str (fst kv) /\ scalar_str (snd kv) /\ snd kv <> []) items2 ->
  exists q1 q2 r, SpecUrl.query_text items1 q1 /\ SpecUrl.query_text items2 q2 /\
    make_request m (u ++ 63 :: q1) h (Some q2) usr = Ok r /\
    forall k, lookup k (rq_data r) = match lookup k items2 with Some v => Some v | None => lookup k items1 end.
Proof. exact r_roundtrip. Qed.
Print Assumptions C69_parameters.
Theorem C69_no_blank_values : forall r k, made r -> lookup k (rq_data r) <> Some [].
Proof. exact made_nonblank. Qed.
Print Assumptions C69_no_blank_values.
Example C69_example :
  rmap rq_data (make_request (lit "Post") (lit "https://op.example/x?a=1&b=2&c=&a=3#frag") [] (Some (lit "b=%C3%A9&d=x+y")) None) =
    Ok [L "a" "3"; (lit "b", [233]); L "d" "x y"] /\
  make_request (lit "PUT") (lit "https://op.example/") [] None None = Err RuntimeError /\
  make_request (lit "GET") (lit "https://[::1/x") [] None None = Err ValueError /\
  (* white space before and inside of the URL, a form in the URL that is no form, a header in two spellings *)
  rmap (fun r => (rq_headers r, rq_data r)) (make_request (lit "gEt") (32 :: lit "https://op.example/x?a" ++ 10 :: lit "=%E9%&b&=1?c=2#d?e") [(lit "A", PStr (lit "1")); (lit "a", PStr (lit "2"))] None None) =
    Ok ([(lit "a", PStr (lit "2"))], [(lit "a", [65533; 37]); ([], lit "1?c=2")]).
Proof. wits. Qed.

(** C71 *)
Theorem C71_consent : forall p r tr c sc, exec (get_consent_data p r) tr (V (Consent c sc)) ->
  exists cid uri rt s l, tr = [OFindClient cid (V (Some c))] /\ data_has r "client_id" cid /\
    data_has r "redirect_uri" uri /\ In uri (cl_redirects c) /\ data_has r "response_type" rt /\ In rt (cl_responses c) /\
    data_has r "scope" s /\ word_list (fun c => In c white) s l /\ sc = cl_allowed c (Some l) /\ (restricts c -> forall x, In x sc -> In x l).
Proof. exact r_consent. Qed.
Print Assumptions C71_consent.
Example C71_example : restricts web /\
  match result_of (run_consent authz_items) with V (Consent c sc) => eqs (cl_id c) (lit "web") && eql sc [lit "openid"; lit "email"] | _ => false end = true /\
  match result_of (run_consent (L "scope" "openid admin" :: firstn 3 authz_items)) with V (Consent c sc) => eql sc [lit "openid"] | _ => false end = true.
Proof. split; [|wits]. intros l x H. apply filter_In in H as [_ H]. apply BaseFacts.ins_In. exact H. Qed.
