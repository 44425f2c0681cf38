(** Consent, authentication requests, sessions and guesses at the example application, and parameters that may be left out: C156-C161. *)
From Coq Require Import String Ascii List NArith ZArith Bool Arith.
From Verif Require Import Base BaseFacts Utf8 SpecCodec Url Webtools Crypto Jwk Prog Http OAuth SpecOAuth SpecReaders SpecHistory SpecFlow Example OAuthRef OAuthWit FlowWit App SpecApp AppFacts AppWit LifeWit SpecLogin LoginWit SpecError ErrorWit SpecConsent ConsentFacts ConsentWit.
Import ListNotations.
Open Scope string_scope.
Open Scope list_scope.
Open Scope N_scope.

(** C156 is refuted: whoever has a session gets a code for every conforming link at once.  The page makes no other call than
    those listed, so it asks the user nothing. *)
Theorem C156_consent_refuted : forall E p hs w tr x u r cid uri scopes ch m c, aexec (application E p hs AuthorizePage w) tr x -> ano_raise tr -> wb_method w = chars "GET" -> session_of w u tr ->
  passed_on w u r -> scalar_data (rq_data r) -> secrets_ok (lib_calls tr) ->
  code_request p r u cid uri scopes ch m -> finds_client cid c (lib_calls tr) -> In uri (cl_redirects c) -> In (chars "code") (cl_responses c) -> incl scopes (cl_allowed c (Some scopes)) ->
  exists z code ad uid sid, x = V (RResponse z) /\
    tr = [OGetSession sid uid (V (Some (Some u))); OLib (OFindClient cid (V (Some c))); OLib (OSecretToken 64 (V code)); OLib (OSaveCode code ad c u (V tt))] /\
    ad_scopes ad = scopes /\ redirects z uri ((chars "code", code) :: state_params (lookup (chars "state") (rq_data r))).
Proof. exact c156. Qed.
Print Assumptions C156_consent_refuted.
Example C156_example : 
  aexec (application ref_env prov oidc AuthorizePage (link plain_items cookie1)) (atrace (follow plain_items cookie1)) (aresult (follow plain_items cookie1)) /\
  ano_raise (atrace (follow plain_items cookie1)) /\ session_of (link plain_items cookie1) alice (atrace (follow plain_items cookie1)) /\ passed_on (link plain_items cookie1) alice linked /\
  scalar_data (rq_data linked) /\ secrets_ok (lib_calls (atrace (follow plain_items cookie1))) /\
  code_request prov linked alice (lit "web") cb [lit "openid"; lit "email"] (lit verifier) (lit "plain") /\ finds_client (lit "web") OAuthRef.web (lib_calls (atrace (follow plain_items cookie1))) /\
  In cb (cl_redirects OAuthRef.web) /\ In (lit "code") (cl_responses OAuthRef.web) /\ incl [lit "openid"; lit "email"] (cl_allowed OAuthRef.web (Some [lit "openid"; lit "email"])) /\
  option_map (fun z => lookup (lit "Location") (rs_headers z)) (response_in (aresult (follow plain_items cookie1))) = Some (Some (PStr (lit "https://c.example/cb?code=tok6&state=x+y"))).
Proof. exact consent_example. Qed.

(** C157 is refuted: for a user with a session, authorization requests that differ in the parameters of OpenID Connect Core section
    3.1.2.1 about the authentication only, such as prompt=login and max_age=0, are treated alike; *)
Theorem C157_prompt_refuted : forall E p hs w w' u r r' tr x, wb_cookie w' = wb_cookie w -> wb_method w = chars "GET" -> wb_method w' = chars "GET" -> passed_on w u r -> passed_on w' u r' ->
  agree_except authentication_params (rq_data r) (rq_data r') -> rq_data r <> [] -> rq_data r' <> [] -> session_of w u tr ->
  (aexec (application E p hs AuthorizePage w) tr x <-> aexec (application E p hs AuthorizePage w') tr x).
Proof. exact c157. Qed.
Print Assumptions C157_prompt_refuted.
Example C157_example : 
  passed_on (link plain_items cookie1) alice linked /\ passed_on fresh_login alice (read_of fresh_login) /\ passed_on no_age alice (read_of no_age) /\
  agree_except authentication_params (rq_data linked) (rq_data (read_of fresh_login)) /\ agree_except authentication_params (rq_data linked) (rq_data (read_of no_age)) /\
  data_has (read_of fresh_login) "prompt" (lit "login") /\ data_has (read_of no_age) "max_age" (lit "0") /\
  session_of (link plain_items cookie1) alice (atrace (follow plain_items cookie1)) /\ rq_data linked <> [] /\ rq_data (read_of fresh_login) <> [] /\
  aresult (follow (asking "prompt" "login") cookie1) = aresult (follow plain_items cookie1).
Proof. exact prompt_example. Qed.

(** and without a session the user is sent to the login page, with prompt=none as well. *)
Theorem C157_none_refuted : forall E p hs w tr x, aexec (application E p hs AuthorizePage w) tr x -> ano_raise tr -> wb_method w = chars "GET" -> is_origin (wb_base w) -> scalar_str (wb_url w) -> no_session tr ->
  exists q, x = V (RRedirect (wb_base w ++ chars "/auth/login?" ++ q) None).
Proof. exact c157_none. Qed.
Print Assumptions C157_none_refuted.
Example C157_example_none : let v := follow (asking "prompt" "none") None in
  aexec (application ref_env prov oidc AuthorizePage nobody) (atrace v) (aresult v) /\ ano_raise (atrace v) /\ is_origin (wb_base nobody) /\ scalar_str (wb_url nobody) /\ no_session (atrace v) /\
  data_has (read_of nobody) "prompt" (lit "none") /\ match aresult v with V (RRedirect l None) => firstn 38 l = host ++ lit "/auth/login?next=" | _ => False end.
Proof. exact none_example. Qed.

(** C158 is refuted: a session that was started is found, however long after, unless a logout of the user came in between. *)
Theorem C158_sessions_last_refuted : forall C aware t t' l1 l2 l3 sid uid y, app_steps C aware t (l1 ++ ONewSession sid uid (V tt) :: l2 ++ OGetSession sid uid (V y) :: l3) t' ->
  ~ In (ODropSessions uid (V tt)) l2 -> y <> None /\ (known t uid -> exists u, y = Some (Some u) /\ us_id u = uid).
Proof. exact c158. Qed.
Print Assumptions C158_sessions_last_refuted.
Example C158_example : app_steps light false tables0 (atrace (ago login_again aworld0) ++ atrace far) (aw_tables (aworld_of far)) /\ known tables0 (lit "alice") /\
  exists l1 l2 l3, atrace (ago login_again aworld0) ++ atrace far = l1 ++ ONewSession (lit "tok2") (lit "alice") (V tt) :: l2 ++ OGetSession (lit "tok2") (lit "alice") (V (Some (Some alice))) :: l3 /\
    ~ In (ODropSessions (lit "alice") (V tt)) l2.
Proof. exact sessions_example. Qed.

(** C159 is refuted: wrong logins, however many and however they interleave, change nothing, and the next one with the right password
    succeeds. *)
Theorem C159_guesses_refuted : forall E p hs C aware qs log t t' w tr x t2 a, app_running E p hs qs log -> app_steps C aware t (map snd log) t' -> guesses t qs ->
  aexec (application E p hs LoginPage w) tr x -> app_steps C aware t' tr t2 -> ano_raise tr -> wb_method w = chars "POST" -> stranger t w -> good_form (wb_form w) -> identifies t w a ->
  t' = t /\ exists url sid, leads x url (Some (a_id a, sid)) /\ In (sid, a_id a) (tb_sessions t2).
Proof. exact c159. Qed.
Print Assumptions C159_guesses_refuted.
Example C159_example : app_running ref_env prov oidc guess_visits (log_of 0 guess_visits aworld0) /\
  app_steps light false tables0 (map snd (log_of 0 guess_visits aworld0)) (aw_tables (AppWit.after guess_visits aworld0)) /\ guesses tables0 guess_visits /\
  length (log_of 0 guess_visits aworld0) = 3%nat /\
  good_form right_form /\ stranger tables0 (login_at evil) /\ (exists a, identifies tables0 (login_at evil) a) /\
  aresult (ago (LoginPage, login_at evil) (AppWit.after guess_visits aworld0)) = V (RRedirect evil (Some (lit "alice", lit "tok5"))).
Proof. exact guesses_example. Qed.

(** C160 is refuted: an authorization request without a scope always gets an error, and never invalid_scope. *)
Theorem C160_default_scope_refuted : forall E p hs r tr z, exec (authorization_endpoint E p hs r) tr (V z) -> made r -> no_oauth_raise tr -> tokens_ok tr -> ~ supplied r "scope" ->
  exists uri ps e, redirects z uri ps /\ (forall v, In (chars "error", v) ps <-> v = e) /\ e <> chars "invalid_scope".
Proof. exact c160. Qed.
Print Assumptions C160_default_scope_refuted.

(** C161 is refuted: an authorization request without a redirect URI leads to the error page, however many the client has
    registered. *)
Theorem C161_default_redirect_refuted : forall E p hs r tr z, exec (authorization_endpoint E p hs r) tr (V z) -> made r -> no_oauth_raise tr -> tokens_ok tr -> ~ supplied r "redirect_uri" ->
  exists ps, redirects z (cf_error_url (pv_config p)) ps /\ forall v, In (chars "error", v) ps <-> v = chars "invalid_request".
Proof. exact c161. Qed.
Print Assumptions C161_default_redirect_refuted.
Example C160_C161_example : authz_ok (drop "scope" authz_items) (Some alice) /\ ~ supplied (asked_without "scope") "scope" /\
  sent (result_of (run_authz (drop "scope" authz_items) (Some alice))) = back cb "invalid_request" /\
  authz_ok (drop "redirect_uri" authz_items) (Some alice) /\ ~ supplied (asked_without "redirect_uri") "redirect_uri" /\ cl_redirects OAuthRef.web = [cb] /\
  sent (result_of (run_authz (drop "redirect_uri" authz_items) (Some alice))) = page "invalid_request".
Proof. exact without_example. Qed.
