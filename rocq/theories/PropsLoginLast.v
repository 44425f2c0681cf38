(** A login lasts until the user logs out: C180. *)
From Coq Require Import String Ascii List NArith ZArith Bool Arith.
From Verif Require Import Base SpecReaders Utf8 Webtools Crypto Jwk Prog Http OAuth SpecOAuth SpecFlow Example OAuthRef OAuthWit FlowWit App SpecApp AppFacts AppWit SpecKeep LoginLastFacts SpecWho LoginLastWit.
Import ListNotations.
Open Scope string_scope.
Open Scope list_scope.
Open Scope N_scope.

(** C180.  In any interleaving of requests to the example application, the session whose cookie a login gave is found again,
    with its user, until a logout of that user. *)
Theorem C180_kept : forall E p hs C aware qs log t0 t, app_running E p hs qs log -> app_steps C aware t0 (map snd log) t ->
  forall j n wl loc sid uid l1 l2 y l3, aexec (application E p hs LoginPage wl) (acalls_of j log) (V (RRedirect loc (Some (uid, sid)))) ->
  log = l1 ++ l2 ++ (n, OGetSession sid uid (V y)) :: l3 -> ~ acted j l1 -> ~ acted j l3 -> n <> j ->
  (forall k q, acted k l2 -> nth_error qs k = Some q -> ~ logs_out log k q uid) -> y = Some (find (fun u => eqs (us_id u) uid) (st_users (tb_store t0))).
Proof. exact c180_kept. Qed.
Print Assumptions C180_kept.
(** So an authorization request with that cookie, after the login and before a logout, as RFC 6749 and RFC 7636 want it sends them back to the client with a code. *)
Theorem C180_authorize : forall E p hs C aware qs log t0 t, app_running E p hs qs log -> app_steps C aware t0 (map snd log) t ->
  forall j n wl loc sid u c l1 l2 l3 l4 w r x uri scopes ch md, NoDup (map us_id (st_users (tb_store t0))) -> In u (st_users (tb_store t0)) ->
  NoDup (map cl_id (st_clients (tb_store t0))) -> In c (st_clients (tb_store t0)) ->
  aexec (application E p hs LoginPage wl) (acalls_of j log) (V (RRedirect loc (Some (us_id u, sid)))) ->
  log = l1 ++ l2 ++ l3 ++ l4 -> ~ acted j l1 -> ~ acted j (l3 ++ l4) -> ~ acted n (l1 ++ l2) -> ~ acted n l4 -> (forall k q, acted k (l2 ++ l3) -> nth_error qs k = Some q -> ~ logs_out log k q (us_id u)) ->
  aexec (application E p hs AuthorizePage w) (acalls_of n log) x -> wb_cookie w = Some (us_id u, sid) -> wb_method w = chars "GET" -> taken_as w (Some u) r ->
  ano_raise (acalls_of n log) -> scalar_data (rq_data r) -> secrets_ok (lib_calls (acalls_of n log)) ->
  code_request p r u (cl_id c) uri scopes ch md -> In uri (cl_redirects c) -> In (chars "code") (cl_responses c) -> incl scopes (cl_allowed c (Some scopes)) ->
  exists z code ad, x = V (RResponse z) /\ In (n, OLib (OSaveCode code ad c u (V tt))) log /\ ad_challenge ad = ch /\ ad_method ad = md /\ ad_redirect ad = uri /\ ad_scopes ad = scopes /\
    redirects z uri ((chars "code", code) :: state_params (lookup (chars "state") (rq_data r))).
Proof. exact c180_authorize. Qed.
Print Assumptions C180_authorize.
(** The user logs in, a token request fails, and the user authorizes the client. *)
Example C180_example : let w := authz_visit "GET" cookie1 in let l1 := firstn 0 stay_log in let l2 := firstn 4 stay_log in let l3 := skipn 4 stay_log in let l4 := nil in
  app_running ref_env prov oidc stay_visits stay_log /\ app_steps light false tables0 (map snd stay_log) (aw_tables (after stay_visits aworld0)) /\
  NoDup (map us_id (st_users (tb_store tables0))) /\ In alice (st_users (tb_store tables0)) /\ NoDup (map cl_id (st_clients (tb_store tables0))) /\ In OAuthRef.web (st_clients (tb_store tables0)) /\
  (exists loc, aexec (application ref_env prov oidc LoginPage (snd login_again)) (acalls_of 0 stay_log) (V (RRedirect loc (Some (us_id alice, lit "tok2"))))) /\
  stay_log = l1 ++ l2 ++ l3 ++ l4 /\ ~ acted 0 l1 /\ ~ acted 0 (l3 ++ l4) /\ ~ acted 2 (l1 ++ l2) /\ ~ acted 2 l4 /\ acted 1 l3 /\
  (forall j q, acted j (l2 ++ l3) -> nth_error stay_visits j = Some q -> ~ logs_out stay_log j q (us_id alice)) /\
  (exists x, aexec (application ref_env prov oidc AuthorizePage w) (acalls_of 2 stay_log) x) /\ wb_cookie w = Some (us_id alice, lit "tok2") /\ wb_method w = chars "GET" /\ taken_as w (Some alice) stay_request /\
  ano_raise (acalls_of 2 stay_log) /\ scalar_data (rq_data stay_request) /\ secrets_ok (lib_calls (acalls_of 2 stay_log)) /\
  code_request prov stay_request alice (cl_id OAuthRef.web) cb [lit "openid"; lit "email"] (lit verifier) (lit "plain") /\ In cb (cl_redirects OAuthRef.web) /\ In (chars "code") (cl_responses OAuthRef.web) /\
  incl [lit "openid"; lit "email"] (cl_allowed OAuthRef.web (Some [lit "openid"; lit "email"])).
Proof. exact stay_example. Qed.
