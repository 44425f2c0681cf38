(** Conformance of the endpoints to RFC 6749, RFC 7636 and RFC 9110: C84-C93. *)
From Coq Require Import String Ascii List NArith ZArith Bool.
From Verif Require Import Base BaseFacts SpecCodec SpecKey Utf8 Base64 Json Url Webtools Crypto RefCrypto Jwk Jws SpecJws JwsRef Jwt SpecJwt Prog Http OAuth SpecOAuth SpecHistory Example ExampleFacts OAuthRef OAuthFacts RequestFacts AuthzFacts TokenFacts ResponseFacts IssueFacts RaiseFacts IdTokenFacts HistoryFacts StoreFacts OAuthWit OAuthEx HistoryWit SpecFlow CompleteFacts FlowFacts LineageFacts FlowWit SpecRfc RfcFacts RfcWit SpecReaders FormAllFacts ReadOAuthFacts.
Import ListNotations.
Open Scope N_scope.
(** C84.  Requests that agree on the recognised parameters, the credentials and the user are treated alike: the order of the
    parameters, other parameters, other headers, the method and the rest of the URL make no difference. *)
Theorem C84_token : forall E p hs r r', same_credentials r r' -> agree token_params (rq_data r) (rq_data r') -> rq_data r <> [] -> rq_data r' <> [] ->
  same_behaviour (token_endpoint E p hs r) (token_endpoint E p hs r').
Proof. exact p_token_ignores. Qed.
Print Assumptions C84_token.
Theorem C84_authorization : forall E p hs r r', rq_user r = rq_user r' -> agree authorization_params (rq_data r) (rq_data r') -> rq_data r <> [] -> rq_data r' <> [] ->
  same_behaviour (authorization_endpoint E p hs r) (authorization_endpoint E p hs r').
Proof. exact p_authorization_ignores. Qed.
Print Assumptions C84_authorization.
Theorem C84_revocation : forall r r', (forall auth, carries (rq_headers r) auth <-> carries (rq_headers r') auth) -> agree revocation_params (form r) (form r') ->
  same_behaviour (revocation_endpoint r) (revocation_endpoint r').
Proof. exact p_revocation_ignores. Qed.
Print Assumptions C84_revocation.
Example C84_example : same_credentials (code_req the_code) noisy_req /\ agree token_params (rq_data (code_req the_code)) (rq_data noisy_req) /\
  rq_data (code_req the_code) <> [] /\ rq_data noisy_req <> [] /\ rq_data noisy_req <> rq_data (code_req the_code) /\ status_of (result_of run2) = 200.
Proof.
  split; [exact (proj1 noisy_same)|]. split; [exact (proj2 noisy_same)|]. split; [vm_compute; discriminate|]. split; [vm_compute; discriminate|].
  split; [vm_compute; discriminate|wit].
Qed.
Example C84_example_authorization : rq_user authz_req = rq_user noisy_authz /\ agree authorization_params (rq_data authz_req) (rq_data noisy_authz) /\
  rq_data noisy_authz <> rq_data authz_req /\ status_of (result_of run1) = 303.
Proof. split; [exact (proj1 noisy_authz_same)|]. split; [exact (proj2 noisy_authz_same)|]. split; [vm_compute; discriminate|wit]. Qed.
Example C84_example_revocation : (forall auth, carries (rq_headers plain_revoke) auth <-> carries (rq_headers noisy_revoke) auth) /\ agree revocation_params (form plain_revoke) (form noisy_revoke) /\
  rq_data plain_revoke <> rq_data noisy_revoke /\ names (trace_of (go (revocation_endpoint noisy_revoke) (world_of run2))) = ["find_client"; "revoke_token"]%string.
Proof. split; [exact (proj1 noisy_revoke_same)|]. split; [exact (proj2 noisy_revoke_same)|]. split; [vm_compute; discriminate|wit]. Qed.

(** C85 is refuted: a GET request with the parameters in the URL gets a token, and the method makes no difference at all. *)
Theorem C85_get_refuted : exists r tr x, made r /\ rq_method r = lit "GET" /\ rq_body r = None /\ exec (token_endpoint ref_env prov oidc r) tr (V x) /\ rs_status x = 200.
Proof. exact wit_get. Qed.
Print Assumptions C85_get_refuted.
Theorem C85_method_ignored_refuted : forall E p hs m m' url h b u r r', make_request m url h b u = Ok r -> make_request m' url h b u = Ok r' ->
  token_endpoint E p hs r = token_endpoint E p hs r' /\ revocation_endpoint r = revocation_endpoint r'.
Proof. exact p_method_ignored. Qed.
Print Assumptions C85_method_ignored_refuted.
Example C85_example : exists r r', make_request (lit "POST") (lit "https://op.example/token?grant_type=client_credentials") [] None None = Ok r /\
  make_request (lit "get") (lit "https://op.example/token?grant_type=client_credentials") [] None None = Ok r' /\ r <> r'.
Proof. eexists. eexists. split; [wit|]. split; [wit|]. vm_compute. discriminate. Qed.

(** C86 is refuted: *)
Theorem C86_repeated_refuted : exists items tr x, ~ NoDup (keys items) /\ exec (token_endpoint ref_env prov oidc (token_req [] items)) tr (V x) /\ rs_status x = 200.
Proof. exact wit_repeated. Qed.
Print Assumptions C86_repeated_refuted.
(** The last value counts, those of the body after those of the URL. *)
Theorem C86_last_value_partial : forall m u items1 items2 h usr, url_clean u -> brackets_match u -> (same_letters m (chars "get") \/ same_letters m (chars "post")) ->
  Forall (fun kv => scalar_str (fst kv) /\ scalar_str (snd kv) /\ snd kv <> []) items1 ->
  Forall (fun kv => scalar_str (fst kv) /\ scalar_str (snd kv) /\ snd kv <> []) items2 ->
  exists q1 q2 r, SpecUrl.query_text items1 q1 /\ SpecUrl.query_text items2 q2 /\
    make_request m (u ++ 63 :: q1) h (Some q2) usr = Ok r /\
    forall k, lookup k (rq_data r) = lookup k (rev (items1 ++ items2)).
Proof. exact r_last_value. Qed.
Print Assumptions C86_last_value_partial.
Example C86_example : member "scope" (body_of (result_of twice_go)) = PNone /\
  names (trace_of twice_go) = ["find_client"; "create_access_token"]%string /\
  lookup (lit "scope") (rq_data twice_req) = Some (lit "openid") /\
  url_clean (lit "https://op.example/token") /\ brackets_match (lit "https://op.example/token") /\ same_letters (lit "Post") (chars "post").
Proof.
  split; [wit|]. split; [wit|]. split; [wit|].
  split; [|split; [apply brackets_iff; wit|apply Forall2_cons; [right; vm_compute; repeat split; discriminate|repeat (apply Forall2_cons; [left; reflexivity|]); apply Forall2_nil]]]. apply Forall_forall. intros c Hc.
  assert (H : forallb (fun c => (32 <? c) && negb (c =? 63) && negb (c =? 35)) (lit "https://op.example/token") = true) by wit.
  rewrite forallb_forall in H. apply H in Hc. apply andb_prop in Hc as [Hc H3]. apply andb_prop in Hc as [H1 H2].
  split; [apply N.ltb_lt; exact H1|]. split; apply N.eqb_neq, negb_true_iff; assumption.
Qed.

(** C87 is refuted: for an unknown code, ... *)
Theorem C87_unknown_code_refuted : forall E p hs r tr x i c code uri v, exec (token_endpoint E p hs r) tr x -> no_raise tr -> exchange_request p r i c code uri v -> finds_client i c tr ->
  (forall y, In (OGetCode code y) tr -> y = V None) -> exists z, x = V z /\ error_answer z "invalid_request".
Proof. exact p_code_unknown. Qed.
Print Assumptions C87_unknown_code_refuted.
(** ... and for an unknown or expired refresh token, or one of another client, the error is another one. *)
Theorem C87_refresh_refuted : forall E p hs r tr x i c t ot, exec (token_endpoint E p hs r) tr x -> no_raise tr ->
  In GRefresh (pv_grants p) -> In (lit "refresh_token") (cl_grants c) -> presents r i c ->
  data_has r "grant_type" (lit "refresh_token") -> data_has r "refresh_token" t -> t <> [] -> finds_client i c tr -> (forall y, In (OGetRT t y) tr -> y = V ot) ->
  exists z, match ot with
    | None => x = V z /\ error_answer z "invalid_request"
    | Some rt => (rt_client rt <> cl_id c -> x = V z /\ error_answer z "invalid_client") /\
        forall T, rt_client rt = cl_id c -> rt_exp rt = Naive T -> late T tr -> x = V z /\ error_answer z "invalid_request"
    end.
Proof. exact p_refresh_refused. Qed.
Print Assumptions C87_refresh_refuted.
(** For a code that does not match the request or has expired the error is the right one. *)
Theorem C87_code_partial : forall E p hs r tr x i c code uri v ac T, (forall b, bytes_ok (e_sha256 E b)) -> exec (token_endpoint E p hs r) tr x -> no_raise tr ->
  exchange_request p r i c code uri v -> finds_client i c tr -> finds_code code ac tr ->
  (ac_method ac = lit "plain" \/ ac_method ac = lit "S256" /\ Forall (fun c => c < 128) v) -> ac_exp ac = Naive T ->
  (ac_redirect ac <> uri \/ ac_client ac <> cl_id c \/ ~ pkce_ok (e_sha256 E) (ac_method ac) (ac_challenge ac) v \/ late T tr) ->
  exists z, x = V z /\ error_answer z "invalid_grant".
Proof. exact p_code_refused. Qed.
Print Assumptions C87_code_partial.
Example C87_example : exchange_request prov (code_req the_code) (lit "web") web the_code cb (lit verifier) /\
  member "error" (body_of (result_of unknown_run)) = PStr (lit "invalid_request") /\
  member "error" (body_of (result_of late_run)) = PStr (lit "invalid_grant") /\
  member "error" (body_of (result_of unknown_refresh)) = PStr (lit "invalid_request") /\
  names (trace_of unknown_refresh) = ["find_client"; "get_refresh_token"]%string.
Proof. split; [exact code_exchange_request|]. wits. Qed.

(** C88 is refuted for every request of this kind: the status is 400. *)
Theorem C88_status_refuted : forall E p hs r tr x g i s oc, exec (token_endpoint E p hs r) tr x -> no_raise tr -> In g (pv_grants p) -> data_has r "grant_type" (grant_type g) ->
  basic_header (rq_headers r) i s -> (forall y, In (OFindClient i y) tr -> y = V oc) -> denied oc s -> exists z, x = V z /\ rs_status z = 400.
Proof. exact p_basic_denied_status. Qed.
Print Assumptions C88_status_refuted.
Theorem C88_denied_partial : forall E p hs r tr x g i s oc, exec (token_endpoint E p hs r) tr x -> no_raise tr -> In g (pv_grants p) -> data_has r "grant_type" (grant_type g) ->
  basic_header (rq_headers r) i s -> (forall y, In (OFindClient i y) tr -> y = V oc) -> denied oc s ->
  exists z, x = V z /\ error_answer z "invalid_client" /\ header_is z "WWW-Authenticate" "Basic" /\
    (oc = None -> described z "Client not found.") /\ (forall c, oc = Some c -> cl_secret c <> Some s -> described z "Mismatching Client Secret.").
Proof. exact p_basic_denied. Qed.
Print Assumptions C88_denied_partial.
Example C88_example : basic_header (rq_headers (guess_req "web")) (lit "web") (lit "guess") /\ denied (Some web) (lit "guess") /\
  data_has (guess_req "web") "grant_type" (lit "authorization_code") /\ names (trace_of (guess_run "web")) = ["find_client"]%string /\
  status_of (result_of (guess_run "web")) = 400 /\ member "error" (body_of (result_of (guess_run "web"))) = PStr (lit "invalid_client").
Proof. split; [apply guess_basic; left; reflexivity|]. split; [left; discriminate|]. wits. Qed.

(** C89 is refuted: *)
Theorem C89_short_verifier_refuted : exists r tr x v, data_has r "code_verifier" v /\ (length v < 43)%nat /\ exec (token_endpoint ref_env prov oidc r) tr (V x) /\ rs_status x = 200.
Proof. exact wit_short_verifier. Qed.
Print Assumptions C89_short_verifier_refuted.
(** It holds for the method "plain". *)
Theorem C89_plain_partial : forall E p p' hs hs' r r' tr tr' x x' code ad c u y ac o, (forall b, bytes_ok (e_sha256 E b)) ->
  exec (authorization_endpoint E p hs r) tr x -> In (OSaveCode code ad c u y) tr -> holds ac ad c u -> ad_method ad = lit "plain" ->
  exec (token_endpoint E p' hs' r') tr' x' -> data_has r' "grant_type" (lit "authorization_code") -> data_has r' "code" code ->
  (forall y, In (OGetCode code y) tr' -> y = V (Some ac)) -> In o tr' -> creates_at o = true \/ creates_rt o = true ->
  exists v, data_has r' "code_verifier" v /\ (43 <= length v <= 128)%nat.
Proof. exact p_plain_verifier. Qed.
Print Assumptions C89_plain_partial.
Example C89_example : status_of (result_of plain1) = 303 /\ status_of (result_of plain2) = 200 /\ existsb creates_at (trace_of plain2) = true /\
  option_map ac_method (lookup the_code (st_codes (w_store (world_of plain1)))) = Some (lit "plain").
Proof. wits. Qed.

(** C90 is refuted: no request without a method gets a code. *)
Theorem C90_no_default_refuted : forall E p hs r tr x code ad c u y, exec (authorization_endpoint E p hs r) tr x -> data_lacks r "code_challenge_method" -> ~ In (OSaveCode code ad c u y) tr.
Proof. exact p_method_missing. Qed.
Print Assumptions C90_no_default_refuted.
Example C90_example : lookup (lit "code_challenge_method") no_method_items = None /\
  location_of (result_of no_method_run) = PStr (lit "https://c.example/cb?error=invalid_request&error_description=Unknown+code+challenge+%22None%22.") /\
  status_of (result_of plain1) = 303 /\ names (trace_of plain1) = ["find_client"; "secret_token"; "save_authorization_code"]%string.
Proof. wits. Qed.

(** C91 is refuted: another client uses up the code, and its own client can not exchange it any more. *)
Theorem C91_burnt_refuted : exists r tr x c ac, exec (token_endpoint ref_env prov oidc r) tr (V x) /\ In (OGetCode the_code (V (Some ac))) tr /\
  In (ODeleteCode the_code (V tt)) tr /\ In (OFindClient (cl_id c) (V (Some c))) tr /\ ac_client ac <> cl_id c /\
  status_of (result_of run2) = 200 /\ status_of (result_of after_steal) = 400.
Proof. exact wit_burn. Qed.
Print Assumptions C91_burnt_refuted.
(** Only authenticated clients that may use codes do so. *)
Theorem C91_authenticated_partial : forall E p hs r tr x code y, exec (token_endpoint E p hs r) tr x -> In (ODeleteCode code y) tr ->
  data_has r "grant_type" (lit "authorization_code") /\ data_has r "code" code /\ In GCode (pv_grants p) /\
  exists i c, In (OFindClient i (V (Some c))) tr /\ authenticates r i c /\ In (lit "authorization_code") (cl_grants c).
Proof. exact p_code_burnt. Qed.
Print Assumptions C91_authenticated_partial.
Example C91_example : In (ODeleteCode the_code (V tt)) (trace_of steal_run) /\
  exec (token_endpoint ref_env prov oidc steal_req) (trace_of steal_run) (result_of steal_run) /\ status_of (result_of steal_run) = 400.
Proof. split; [apply nth_error_In with (n := 2%nat); wit|]. split; [unfold steal_run; apply go_exec|wit]. Qed.

(** C92 is refuted: the description tells whether the client exists. *)
Theorem C92_existence_refuted : exists r i x x', basic_header (rq_headers r) i (lit "guess") /\
  exec (token_endpoint ref_env prov oidc r) [OFindClient i (V (Some web))] (V x) /\ exec (token_endpoint ref_env prov oidc r) [OFindClient i (V None)] (V x') /\
  rs_body x <> rs_body x'.
Proof. exact wit_existence. Qed.
Print Assumptions C92_existence_refuted.
(** The status, the error code and the header are the same. *)
Theorem C92_same_error_partial : forall E p hs r tr tr' x x' g i s c, exec (token_endpoint E p hs r) tr x -> exec (token_endpoint E p hs r) tr' x' -> no_raise tr -> no_raise tr' ->
  In g (pv_grants p) -> data_has r "grant_type" (grant_type g) -> basic_header (rq_headers r) i s ->
  finds_client i c tr -> cl_secret c <> Some s -> (forall y, In (OFindClient i y) tr' -> y = V None) ->
  exists z z' h, x = V z /\ x' = V z' /\ rs_status z = rs_status z' /\ error_answer z "invalid_client" /\ error_answer z' "invalid_client" /\ rs_headers z = h /\ rs_headers z' = h.
Proof. exact p_basic_denied_same. Qed.
Print Assumptions C92_same_error_partial.
Example C92_example : basic_header (rq_headers (guess_req "nobody")) (lit "nobody") (lit "guess") /\
  member "error_description" (body_of (result_of (guess_run "nobody"))) = PStr (lit "Client not found.") /\
  member "error_description" (body_of (result_of (guess_run "web"))) = PStr (lit "Mismatching Client Secret.").
Proof. split; [apply guess_basic; right; left; reflexivity|]. wits. Qed.

(** C93 *)
Theorem C93_token : forall E p hs r tr z, exec (token_endpoint E p hs r) tr (V z) -> no_oauth_raise tr -> clean_headers z.
Proof. exact p_token_headers_clean. Qed.
Print Assumptions C93_token.
Theorem C93_authorization : forall E p hs r tr z, exec (authorization_endpoint E p hs r) tr (V z) -> no_oauth_raise tr -> clean_headers z.
Proof. exact p_authorization_headers_clean. Qed.
Print Assumptions C93_authorization.
Theorem C93_consent : forall p r tr z, exec (get_consent_data p r) tr (V (ConsentRedirect z)) -> no_oauth_raise tr -> clean_headers z.
Proof. exact p_consent_headers_clean. Qed.
Print Assumptions C93_consent.
Theorem C93_revocation : forall r tr z, exec (revocation_endpoint r) tr (V (Some z)) -> no_oauth_raise tr -> clean_headers z.
Proof. exact p_revocation_headers_clean. Qed.
Print Assumptions C93_revocation.
Example C93_example : exec (authorization_endpoint ref_env prov oidc (req "GET" (authorization_url crlf_items) [] None (Some alice))) (trace_of crlf_run) (result_of crlf_run) /\
  no_raise (trace_of crlf_run) /\ location_of (result_of crlf_run) = PStr (lit "https://c.example/cb?code=tok1&state=x%0D%0ASet-Cookie%3A+a%3Db") /\
  exec (token_endpoint ref_env prov oidc (code_req the_code)) (trace_of run2) (result_of run2) /\ no_raise (trace_of run2).
Proof.
  split; [unfold crlf_run, run_authz; apply go_exec|]. split; [apply no_raise_at; wit|]. split; [wit|]. split; [exact run2_exec|apply no_raise_at; wit].
Qed.
