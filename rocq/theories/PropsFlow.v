(** Properties of whole flows: C80-C83. *)
From Coq Require Import String Ascii List NArith ZArith Bool.
From Verif Require Import Base BaseFacts SpecCodec SpecKey Utf8 Base64 Json Url Webtools Crypto RefCrypto Jwk Jws SpecJws JwsRef Jwt SpecJwt Prog Http OAuth SpecOAuth SpecHistory Example ExampleFacts OAuthRef OAuthFacts RequestFacts AuthzFacts TokenFacts ResponseFacts IssueFacts RaiseFacts IdTokenFacts HistoryFacts StoreFacts OAuthWit OAuthEx HistoryWit SpecFlow CompleteFacts FlowFacts LineageFacts FlowWit.
Import ListNotations.
Open Scope N_scope.
(** C80.  Requests that follow the protocol succeed.  The premises say what the client sends and what the application
    answers; the conclusion is a response with the tokens that the application created.  The exchange of a code: *)
Theorem C80_code_exchange : forall E p hs r tr x i c code uri v ac u, (forall b, bytes_ok (e_sha256 E b)) ->
  exec (token_endpoint E p hs r) tr x -> no_raise tr -> texts_ok tr -> hk_response hs = [] ->
  exchange_request p r i c code uri v -> matching_code E c uri v tr ac ->
  finds_client i c tr -> finds_code code ac tr -> finds_user (ac_user ac) u tr ->
  exists z a rt, x = V z /\ In (OCreateAT c (OwnUser u) (ac_scopes ac) (V a)) tr /\ created_refresh c (OwnUser u) (ac_scopes ac) rt tr /\
    token_answer z a (cf_token_lifespan (pv_config p)) rt (ac_scopes ac).
Proof. exact p_code_complete. Qed.
Print Assumptions C80_code_exchange.
(** The authorization request: *)
Theorem C80_authorization : forall E p hs r tr x u cid uri scopes ch m c, exec (authorization_endpoint E p hs r) tr x -> no_raise tr -> made r -> scalar_data (rq_data r) -> secrets_ok tr ->
  code_request p r u cid uri scopes ch m -> finds_client cid c tr -> In uri (cl_redirects c) -> In (lit "code") (cl_responses c) -> incl scopes (cl_allowed c (Some scopes)) ->
  exists z code ad, x = V z /\ tr = [OFindClient cid (V (Some c)); OSecretToken 64 (V code); OSaveCode code ad c u (V tt)] /\
    ad_challenge ad = ch /\ ad_method ad = m /\ ad_redirect ad = uri /\ ad_scopes ad = scopes /\ ad_state ad = lookup (lit "state") (rq_data r) /\
    redirects z uri ((lit "code", code) :: state_params (lookup (lit "state") (rq_data r))).
Proof. exact p_authorize_complete. Qed.
Print Assumptions C80_authorization.
(** The refresh request.  The response repeats the scopes unless they are exactly those of the stored token. *)
Theorem C80_refresh : forall E p hs r tr x i c t rt ou T req, order_ok E -> exec (token_endpoint E p hs r) tr x -> no_raise tr -> texts_ok tr ->
  In GRefresh (pv_grants p) -> In (lit "refresh_token") (cl_grants c) -> presents r i c ->
  data_has r "grant_type" (lit "refresh_token") -> data_has r "refresh_token" t -> t <> [] ->
  rt_client rt = cl_id c -> rt_exp rt = Naive T ->
  finds_client i c tr -> finds_refresh t rt tr -> (forall y, In (OFindUser (rt_user rt) y) tr -> y = V ou) -> before T tr ->
  (req = rt_scopes rt /\ asks_none r \/ asks r req /\ incl req (cf_scopes (pv_config p)) /\ incl req (cl_allowed c (Some req)) /\ incl req (rt_scopes rt)) ->
  exists z a new sc' sc, x = V z /\ (forall w, In w sc' <-> In w req) /\
    In (OCreateAT c (match ou with Some u => OwnUser u | None => OwnNone end) (cl_allowed c (Some sc')) (V a)) tr /\
    In (OCreateRT c (match ou with Some u => OwnUser u | None => OwnNone end) (cl_allowed c (Some sc')) (V new)) tr /\
    token_answer z a (cf_token_lifespan (pv_config p)) new sc /\
    (sc = cl_allowed c (Some sc') \/ (sc = [] /\ cl_allowed c (Some sc') = rt_scopes rt)).
Proof. exact p_refresh_complete. Qed.
Print Assumptions C80_refresh.
(** The client credentials request: *)
Theorem C80_client_credentials : forall E p hs r tr x i c req, exec (token_endpoint E p hs r) tr x -> no_raise tr -> texts_ok tr ->
  In GClientCredentials (pv_grants p) -> In (lit "client_credentials") (cl_grants c) -> presents r i c -> cl_secret c <> None ->
  data_has r "grant_type" (lit "client_credentials") -> finds_client i c tr ->
  (req = None /\ asks_none r \/ exists l, req = Some l /\ asks r l /\ incl l (cf_scopes (pv_config p)) /\ incl l (cl_allowed c req)) ->
  exists z a sc, x = V z /\ tr = [OFindClient i (V (Some c)); OCreateAT c (OwnClient c) (cl_allowed c req) (V a)] /\
    token_answer z a (cf_token_lifespan (pv_config p)) None sc /\ (sc = cl_allowed c req \/ (sc = [] /\ req = Some (cl_allowed c req))).
Proof. exact p_cc_complete. Qed.
Print Assumptions C80_client_credentials.
Example C80_example :
  exec (token_endpoint ref_env prov no_hooks (code_req the_code)) (trace_of run2n) (result_of run2n) /\ no_raise (trace_of run2n) /\ texts_ok (trace_of run2n) /\
  exchange_request prov (code_req the_code) (lit "web") web the_code cb (lit verifier) /\
  matching_code ref_env web cb (lit verifier) (trace_of run2n) the_auth_code /\ finds_client (lit "web") web (trace_of run2n) /\
  finds_code the_code the_auth_code (trace_of run2n) /\ finds_user (lit "alice") alice (trace_of run2n) /\ status_of (result_of run2n) = 200.
Proof. exact (conj run2n_exec code_premises). Qed.
Example C80_example_authorization : made authz_req /\ code_request prov authz_req alice (lit "web") cb [lit "openid"; lit "email"] (lit challenge) (lit "S256") /\
  In cb (cl_redirects web) /\ In (lit "code") (cl_responses web) /\ incl [lit "openid"; lit "email"] (cl_allowed web (Some [lit "openid"; lit "email"])) /\
  exec (authorization_endpoint ref_env prov oidc authz_req) (trace_of run1) (result_of run1) /\ status_of (result_of run1) = 303 /\
  location_of (result_of run1) = PStr (lit "https://c.example/cb?code=tok1&state=x+y").
Proof.
  split; [exact authz_made|]. split; [exact authz_code_request|]. split; [apply ins_In; wit|]. split; [apply ins_In; wit|].
  split; [intros w [<-|[<-|[]]]; apply ins_In; wit|]. split; [exact run1_exec|]. wits.
Qed.
Example C80_example_refresh : asks_none (refresh_req (lit "tok8")) /\ data_has (refresh_req (lit "tok8")) "refresh_token" (lit "tok8") /\
  presents (refresh_req (lit "tok8")) (lit "web") web /\ order_ok ref_env /\ status_of (result_of run3) = 200 /\
  asks (email_req "tok8") [lit "email"] /\ status_of (result_of narrow3) = 200 /\ member "scope" (body_of (result_of narrow3)) = PStr (lit "email") /\ member "scope" (body_of (result_of run3)) = PNone.
Proof. split; [wit|]. split; [wit|]. split; [apply basic_web; wit|]. split; [exact ref_order|]. split; [wit|]. split; [apply asks_at; wit|]. wits. Qed.
Example C80_example_client_credentials : asks_none (cc_req []) /\ data_has (cc_req []) "grant_type" (lit "client_credentials") /\
  status_of (result_of (run_cc [])) = 200 /\ names (trace_of (run_cc [])) = ["find_client"; "create_access_token"]%string.
Proof. wits. Qed.

(** C81.  The two halves meet: in a history of requests, of which some may crash, a code that was given for an authorization
    request that follows the protocol is exchanged for tokens of the same scopes for the same user.  No other request
    may have presented the code in between. *)
Theorem C81_flow : forall E (l1 l2 l3 : list event) e1 e2 u cid uri scopes ch m c i v u', (forall b, bytes_ok (e_sha256 E b)) ->
  let l := l1 ++ e1 :: l2 ++ e2 :: l3 in
  with_crashes E l -> served E (ev_in e1) (ev_calls e1) (ev_answer e1) -> served E (ev_in e2) (ev_calls e2) (ev_answer e2) ->
  keeps_codes (all_calls l) -> (forall code, fresh code (all_calls l)) ->
  no_raise (ev_calls e1) -> no_raise (ev_calls e2) -> secrets_ok (ev_calls e1) -> texts_ok (ev_calls e2) ->
  in_service (ev_in e1) = Authorize -> made (in_request (ev_in e1)) -> scalar_data (rq_data (in_request (ev_in e1))) ->
  code_request (in_provider (ev_in e1)) (in_request (ev_in e1)) u cid uri scopes ch m -> finds_client cid c (ev_calls e1) ->
  In uri (cl_redirects c) -> In (lit "code") (cl_responses c) -> incl scopes (cl_allowed c (Some scopes)) ->
  in_service (ev_in e2) = Token -> hk_response (in_hooks (ev_in e2)) = [] ->
  exists z code, ev_answer e1 = Some z /\ redirects z uri ((lit "code", code) :: state_params (lookup (lit "state") (rq_data (in_request (ev_in e1))))) /\
    (exchange_request (in_provider (ev_in e2)) (in_request (ev_in e2)) i c code uri v -> pkce_ok (e_sha256 E) m ch v ->
     finds_client i c (ev_calls e2) -> finds_user (us_id u) u' (ev_calls e2) ->
     (forall e, In e l2 -> ~ data_has (in_request (ev_in e)) "code" code) ->
     (forall ac, In (OGetCode code (V (Some ac))) (ev_calls e2) -> exists t, ac_exp ac = Naive t /\ before t (ev_calls e2)) ->
     exists z2 a rt, ev_answer e2 = Some z2 /\ In (OCreateAT c (OwnUser u') scopes (V a)) (ev_calls e2) /\
       created_refresh c (OwnUser u') scopes rt (ev_calls e2) /\ token_answer z2 a (cf_token_lifespan (pv_config (in_provider (ev_in e2)))) rt scopes).
Proof. exact p_flow. Qed.
Print Assumptions C81_flow.
(** The example adapter keeps codes as the premise demands. *)
Theorem C81_example_adapter : forall C aware s tr s', ex_steps C aware s tr s' -> keeps_codes tr.
Proof. exact p_example_keeps. Qed.
Print Assumptions C81_example_adapter.
Example C81_example : sequential ref_env flow /\ keeps_codes (all_calls flow) /\ (forall code, fresh code (all_calls flow)) /\
  code_request prov authz_req alice (lit "web") cb [lit "openid"; lit "email"] (lit challenge) (lit "S256") /\
  exchange_request prov (code_req the_code) (lit "web") web the_code cb (lit verifier) /\ pkce_ok (e_sha256 ref_env) (lit "S256") (lit challenge) (lit verifier) /\
  ~ data_has (cc_req []) "code" the_code /\ status_of (result_of between) = 200 /\ status_of (result_of later) = 200 /\
  member "scope" (body_of (result_of later)) = PStr (lit "openid email").
Proof.
  split; [exact flow_seq|]. split; [exact flow_keeps|]. split; [exact flow_fresh|]. split; [exact authz_code_request|]. split; [exact code_exchange_request|].
  split; [exact the_pkce|]. split; [vm_compute; discriminate|]. wits.
Qed.

(** C82.  The tokens of a user go back to authorization requests by this user, however the requests interleave and wherever
    they stop, and however often refresh tokens were exchanged in between. *)
Theorem C82_lineage : forall E, (forall b, bytes_ok (e_sha256 E b)) -> order_ok E -> forall qs log n o c u sc, running E qs log -> honours (map snd log) -> honours_rt (map snd log) -> users_by_id (map snd log) -> owned (map snd log) -> clients_restrict (map snd log) ->
  In (n, o) log -> (exists y, o = OCreateAT c (OwnUser u) sc y) \/ (exists y, o = OCreateRT c (OwnUser u) sc y) ->
  exists m q0, nth_error qs m = Some q0 /\ granted_by q0 (calls_of m log) c u sc.
Proof. exact p_lineage. Qed.
Print Assumptions C82_lineage.
(** With the example adapter on a store without codes and tokens: *)
Theorem C82_example_adapter : forall E C aware s s' qs log n o c u sc, (forall b, bytes_ok (e_sha256 E b)) -> order_ok E -> running E qs log -> ex_steps C aware s (map snd log) s' ->
  st_codes s = [] -> st_rts s = [] -> (forall c, In c (st_clients s) -> restricts c) ->
  In (n, o) log -> (exists y, o = OCreateAT c (OwnUser u) sc y) \/ (exists y, o = OCreateRT c (OwnUser u) sc y) ->
  exists m q0, nth_error qs m = Some q0 /\ granted_by q0 (calls_of m log) c u sc.
Proof. exact p_lineage_example. Qed.
Print Assumptions C82_example_adapter.
Theorem C82_history : forall E C aware s s' l e o c u sc, (forall b, bytes_ok (e_sha256 E b)) -> order_ok E -> with_crashes E l -> ex_steps C aware s (all_calls l) s' ->
  st_codes s = [] -> st_rts s = [] -> (forall c, In c (st_clients s) -> restricts c) ->
  In e l -> In o (ev_calls e) -> (exists y, o = OCreateAT c (OwnUser u) sc y) \/ (exists y, o = OCreateRT c (OwnUser u) sc y) ->
  exists e0, In e0 l /\ granted_by (ev_in e0) (ev_calls e0) c u sc.
Proof. exact p_lineage_history. Qed.
Print Assumptions C82_history.
Example C82_example : sequential ref_env broader /\ (exists s, ex_steps light false store0 (all_calls broader) s) /\ (forall c, In c (st_clients store0) -> restricts c) /\
  (exists y, In (OCreateAT web (OwnUser alice) [lit "email"] (V y)) (trace_of narrow3)) /\
  granted_by (inc Authorize authz_req) (trace_of run1) web alice [lit "email"].
Proof.
  split; [exact broader_seq|]. split; [exact broader_steps|]. split; [intros c [<-|[<-|[<-|[]]]]; exact (p_ex_client_restricts _ _ _ _ _ _ _)|].
  split; [eexists; apply nth_error_In with (n := 4%nat); wit|]. exact authz_grants.
Qed.

(** C83 is refuted for the example adapter: a user who allowed "openid email" before and now only "openid" gets the older
    refresh token, which still gives "email". *)
Theorem C83_broader_token_refuted : exists l e4 e5 z d t y s, sequential ref_env (l ++ [e4; e5]) /\ ex_steps light false store0 (all_calls (l ++ [e4; e5])) s /\
  in_service (ev_in e4) = Token /\ ev_answer e4 = Some z /\ json_body z d /\
  lookup (lit "scope") d = Some (PStr (lit "openid")) /\ lookup (lit "refresh_token") d = Some (PStr t) /\
  in_service (ev_in e5) = Token /\ data_has (in_request (ev_in e5)) "refresh_token" t /\
  In (OCreateAT web (OwnUser alice) [lit "email"] (V y)) (ev_calls e5) /\ exists z', ev_answer e5 = Some z' /\ rs_status z' = 200.
Proof. exact wit_broader. Qed.
Print Assumptions C83_broader_token_refuted.
(** Where the client has no refresh token of this user, the new one has the scopes that it was created with. *)
Theorem C83_first_token_partial : forall C aware s s' a c w sc t b u, ex_steps C aware s (a ++ OCreateRT c w sc (V (Some t)) :: b) s' -> owner_id w = Ok u ->
  (forall k rt, In (k, rt) (st_rts s) -> ~ (rt_client rt = cl_id c /\ rt_user rt = u)) ->
  (forall c' w' sc' y, In (OCreateRT c' w' sc' y) a -> ~ (cl_id c' = cl_id c /\ owner_id w' = Ok u)) ->
  (forall c' h y, cl_id c' = cl_id c -> ~ In (ORevokeToken c' t h y) b) ->
  exists rt, lookup t (st_rts s') = Some rt /\ rt_holds rt c w sc.
Proof. exact p_first_token. Qed.
Print Assumptions C83_first_token_partial.
Example C83_example : ex_steps light false (w_store (world_of run1)) (trace_of run2) (w_store (world_of run2)) /\ st_rts (w_store (world_of run1)) = [] /\
  In (OCreateRT web (OwnUser alice) [lit "openid"; lit "email"] (V (Some (lit "tok8")))) (trace_of run2) /\
  option_map rt_scopes (lookup (lit "tok8") (st_rts (w_store (world_of run2)))) = Some [lit "openid"; lit "email"] /\
  option_map rt_scopes (lookup (lit "tok8") (st_rts (w_store (world_of narrow2)))) = Some [lit "openid"; lit "email"].
Proof. split; [exact run2_steps|]. split; [wit|]. split; [apply nth_error_In with (n := 5%nat); wit|]. wits. Qed.
