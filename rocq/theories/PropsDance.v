(** The whole flow among other requests: C181. *)
From Coq Require Import String Ascii List NArith ZArith Bool Arith.
From Verif Require Import Base SpecReaders Utf8 Webtools Crypto Jwk Prog Http OAuth SpecOAuth SpecFlow SpecHook Example OAuthRef OAuthWit FlowWit HookWit App SpecApp AppFacts AppWit SpecKeep SpecWho SpecAvail AvailWit LoginLastWit DanceFacts DanceWit.
Import ListNotations.
Open Scope string_scope.
Open Scope list_scope.
Open Scope N_scope.

(** C181.  In any interleaving of requests to the example application, a user who logged in and authorizes a client before
    they log out is sent back with a code, and the client gets a token of that user for it, unless another token request
    names the code; each as RFC 6749 and RFC 7636 want it. *)
Theorem C181_flow : forall E p hs C aware qs log t0 t, app_running E p hs qs log -> app_steps C aware t0 (map snd log) t ->
  forall j n h wl loc sid u c l1 l2 l3 l4 w r x uri scopes ch md, (forall b, bytes_ok (e_sha256 E b)) -> hashes E -> hk_response hs <> [] ->
  NoDup (map us_id (st_users (tb_store t0))) -> In u (st_users (tb_store t0)) -> NoDup (map cl_id (st_clients (tb_store t0))) -> In c (st_clients (tb_store t0)) -> NoDup (map fst (st_codes (tb_store t0))) ->
  aexec (application E p hs LoginPage wl) (acalls_of j log) (V (RRedirect loc (Some (us_id u, sid)))) ->
  log = l1 ++ l2 ++ l3 ++ l4 -> ~ acted j l1 -> ~ acted j (l3 ++ l4) -> ~ acted n (l1 ++ l2) -> ~ acted n l4 -> ~ acted h (l1 ++ l2 ++ l3) ->
  (forall k q, acted k (l2 ++ l3) -> nth_error qs k = Some q -> ~ logs_out log k q (us_id u)) ->
  aexec (application E p hs AuthorizePage w) (acalls_of n log) x -> wb_cookie w = Some (us_id u, sid) -> wb_method w = chars "GET" -> taken_as w (Some u) r ->
  ano_raise (acalls_of n log) -> scalar_data (rq_data r) -> secrets_ok (lib_calls (acalls_of n log)) ->
  code_request p r u (cl_id c) uri scopes ch md -> In uri (cl_redirects c) -> In (chars "code") (cl_responses c) -> incl scopes (cl_allowed c (Some scopes)) ->
  exists z code, x = V (RResponse z) /\ redirects z uri ((chars "code", code) :: state_params (lookup (chars "state") (rq_data r))) /\
    forall w' r' x' v, (forall k q, acted k (l3 ++ l4) -> k <> h -> nth_error qs k = Some q -> ~ names_code q code) ->
    aexec (application E p hs TokenPage w') (acalls_of h log) x' -> wb_cookie w' = None -> wb_method w' = chars "POST" -> taken_as w' None r' ->
    exchange_request p r' (cl_id c) c code uri v -> pkce_ok (e_sha256 E) md ch v ->
    no_raise (lib_calls (acalls_of h log)) -> texts_ok (lib_calls (acalls_of h log)) ->
    (forall row e, In (OGetCode code (V (Some row))) (lib_calls (acalls_of h log)) -> ac_exp row = Naive e -> before e (lib_calls (acalls_of h log))) ->
    (forall hk, In hk (hk_response hs) -> hook_served E hk (lib_calls (acalls_of h log)) /\ quick (cf_id_token_lifespan (hk_config hk)) (lib_calls (acalls_of h log))) ->
    exists z' a rt, x' = V (RResponse z') /\ In (h, OLib (OCreateAT c (OwnUser u) scopes (V a))) log /\
      created_refresh c (OwnUser u) scopes rt (lib_calls (acalls_of h log)) /\ token_answer z' a (cf_token_lifespan (pv_config p)) rt scopes.
Proof. exact c181_flow. Qed.
Print Assumptions C181_flow.
(** The user logs in and authorizes the client, another token request fails, the user logs out, and the client exchanges
    the code. *)
Example C181_example : let w := authz_visit "GET" cookie1 in let w' := token_visit (plain_code (lit "tok6")) in
  let l1 := nil in let l2 := firstn 4 avail_log in let l3 := firstn 4 (skipn 4 avail_log) in let l4 := skipn 8 avail_log in
  (forall b, bytes_ok (e_sha256 ref_env b)) /\ hashes ref_env /\ hk_response oidc = [the_hook] /\
  app_running ref_env prov oidc avail_visits avail_log /\ app_steps light false tables0 (map snd avail_log) (aw_tables (after avail_visits aworld0)) /\
  NoDup (map us_id (st_users (tb_store tables0))) /\ In alice (st_users (tb_store tables0)) /\ NoDup (map cl_id (st_clients (tb_store tables0))) /\ In OAuthRef.web (st_clients (tb_store tables0)) /\
  NoDup (map fst (st_codes (tb_store tables0))) /\
  (exists loc, aexec (application ref_env prov oidc LoginPage (snd login_again)) (acalls_of 0 avail_log) (V (RRedirect loc (Some (us_id alice, lit "tok2"))))) /\
  avail_log = l1 ++ l2 ++ l3 ++ l4 /\ ~ acted 0 l1 /\ ~ acted 0 (l3 ++ l4) /\ ~ acted 1 (l1 ++ l2) /\ ~ acted 1 l4 /\ ~ acted 4 (l1 ++ l2 ++ l3) /\
  (forall k q, acted k (l2 ++ l3) -> nth_error avail_visits k = Some q -> ~ logs_out avail_log k q (us_id alice)) /\
  (exists x, aexec (application ref_env prov oidc AuthorizePage w) (acalls_of 1 avail_log) x) /\ wb_cookie w = Some (us_id alice, lit "tok2") /\ wb_method w = chars "GET" /\ taken_as w (Some alice) stay_request /\
  ano_raise (acalls_of 1 avail_log) /\ scalar_data (rq_data stay_request) /\ secrets_ok (lib_calls (acalls_of 1 avail_log)) /\
  code_request prov stay_request alice (cl_id OAuthRef.web) cb [lit "openid"; lit "email"] (lit verifier) (lit "plain") /\ In cb (cl_redirects OAuthRef.web) /\ In (chars "code") (cl_responses OAuthRef.web) /\
  incl [lit "openid"; lit "email"] (cl_allowed OAuthRef.web (Some [lit "openid"; lit "email"])) /\
  (forall k q, acted k (l3 ++ l4) -> k <> 4%nat -> nth_error avail_visits k = Some q -> ~ names_code q (lit "tok6")) /\
  (exists x, aexec (application ref_env prov oidc TokenPage w') (acalls_of 4 avail_log) x) /\ wb_cookie w' = None /\ wb_method w' = chars "POST" /\ taken_as w' None avail_request /\
  exchange_request prov avail_request (cl_id OAuthRef.web) OAuthRef.web (lit "tok6") cb (lit verifier) /\ pkce_ok (e_sha256 ref_env) (lit "plain") (lit verifier) (lit verifier) /\
  no_raise avail_tr /\ texts_ok avail_tr /\ (forall row e, In (OGetCode (lit "tok6") (V (Some row))) avail_tr -> ac_exp row = Naive e -> before e avail_tr) /\
  (forall h, In h (hk_response oidc) -> hook_served ref_env h avail_tr /\ quick (cf_id_token_lifespan (hk_config h)) avail_tr).
Proof. exact dance_example. Qed.
