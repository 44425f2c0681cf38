(** The properties of the token and revocation endpoints: C49-C51, C55-C64 and C70. *)
From Coq Require Import String Ascii List NArith ZArith Bool.
From Verif Require Import Base SpecCodec SpecKey Utf8 Base64 Json Url Webtools Crypto RefCrypto Jwk Jws SpecJws JwsRef Jwt SpecJwt Prog Http OAuth SpecOAuth SpecHistory Example ExampleFacts OAuthRef OAuthFacts RequestFacts AuthzFacts TokenFacts ResponseFacts IssueFacts RaiseFacts IdTokenFacts HistoryFacts StoreFacts OAuthWit OAuthEx HistoryWit.
Import ListNotations.
Open Scope N_scope.
(** C49.  The premise says that SHA-256 yields octets. *)
Theorem C49_challenge_saved : forall E p hs r tr x code ad c u y, exec (authorization_endpoint E p hs r) tr x -> In (OSaveCode code ad c u y) tr ->
  data_has r "code_challenge" (ad_challenge ad) /\ (43 <= length (ad_challenge ad) <= 128)%nat /\
  data_has r "code_challenge_method" (ad_method ad) /\ (ad_method ad = lit "plain" \/ ad_method ad = lit "S256").
Proof. exact p_saved_challenge. Qed.
Print Assumptions C49_challenge_saved.
Theorem C49_pkce_enforced : forall E p hs r tr x o, (forall b, bytes_ok (e_sha256 E b)) ->
  exec (token_endpoint E p hs r) tr x -> data_has r "grant_type" (lit "authorization_code") -> In o tr -> creates_at o = true \/ creates_rt o = true ->
  exists code ac v, data_has r "code" code /\ In (OGetCode code (V (Some ac))) tr /\
    data_has r "code_verifier" v /\ pkce_ok (e_sha256 E) (ac_method ac) (ac_challenge ac) v.
Proof. exact p_pkce. Qed.
Print Assumptions C49_pkce_enforced.
Example C49_example : (forall b, bytes_ok (e_sha256 ref_env b)) /\
  exec (token_endpoint ref_env prov oidc (code_req the_code)) (trace_of run2) (result_of run2) /\
  existsb creates_at (trace_of run2) = true /\ existsb creates_rt (trace_of run2) = true /\
  pkce_ok (e_sha256 ref_env) (lit "S256") (lit challenge) (lit verifier) /\
  (let wrong := go (token_endpoint ref_env prov oidc (token_req (basic "web" "s3cret") (firstn 3 (code_items the_code) ++ [L "code_verifier" challenge]))) (world_of run1) in
   status_of (result_of wrong) = 400 /\ names (trace_of wrong) = ["find_client"; "get_authorization_code"; "delete_authorization_code"]%string).
Proof.
  split; [exact (sha_ok SHA256)|]. split; [exact run2_exec|]. split; [wit|]. split; [wit|]. split.
  - right. split; [reflexivity|]. split; [|wit]. apply Forall_forall. intros c H. assert (E : forallb (fun c => c <? 128) (lit verifier) = true) by wit.
    rewrite forallb_forall in E. apply N.ltb_lt. apply E. exact H.
  - wits.
Qed.

(** C50 *)
Theorem C50_code_bound : forall E p hs r tr x o, (forall b, bytes_ok (e_sha256 E b)) ->
  exec (token_endpoint E p hs r) tr x -> data_has r "grant_type" (lit "authorization_code") -> In o tr -> creates_at o = true \/ creates_rt o = true ->
  exists i c code uri v ac u now off t rest,
    tr = OFindClient i (V (Some c)) :: OGetCode code (V (Some ac)) :: ONow (V (now, off)) :: OFindUser (ac_user ac) (V (Some u)) :: rest /\
    authenticates r i c /\ data_has r "code" code /\
    data_has r "redirect_uri" uri /\ uri = ac_redirect ac /\ In uri (cl_redirects c) /\ ac_client ac = cl_id c /\
    ac_exp ac = Naive t /\ (now < t)%Z /\
    data_has r "code_verifier" v /\ pkce_ok (e_sha256 E) (ac_method ac) (ac_challenge ac) v /\
    ((exists y, o = OCreateAT c (OwnUser u) (ac_scopes ac) y) \/
     ((exists y, o = OCreateRT c (OwnUser u) (ac_scopes ac) y) /\ In (lit "refresh_token") (cl_grants c))).
Proof. exact p_code_grant. Qed.
Print Assumptions C50_code_bound.
Example C50_example : status_of (result_of run2) = 200 /\
  names (trace_of run2) = ["find_client"; "get_authorization_code"; "utcnow"; "find_user"; "create_access_token"; "create_refresh_token"; "get_key_info";
    "get_userinfo"; "utcnow"; "utcnow"; "utcnow"; "sign"; "delete_authorization_code"]%string /\
  (let late := go (token_endpoint ref_env prov oidc (code_req the_code)) {| w_store := w_store (world_of run1); w_count := 9; w_now := 1700086401000000 |} in
   status_of (result_of late) = 400 /\ member "error_description" (body_of (result_of late)) = PStr (lit "Expired Authorization Code.")).
Proof. wits. Qed.

(** C51.  The calls may raise; a cancelled call is one that raises asyncio.CancelledError. *)
Theorem C51_code_deleted : forall E cfg hs data c tr x code, exec (code_token E cfg hs data c) tr x -> param "code" data = Some code ->
  exists tr' y, tr = tr' ++ [ODeleteCode code y] /\ (forall code' y', ~ In (ODeleteCode code' y') tr') /\
    (forall e, y = X e -> x = X e).
Proof. exact p_code_deleted. Qed.
Print Assumptions C51_code_deleted.
Theorem C51_code_deleted_endpoint : forall E p hs r tr x o code, exec (token_endpoint E p hs r) tr x ->
  data_has r "grant_type" (lit "authorization_code") -> data_has r "code" code -> In o tr -> (forall i y, o <> OFindClient i y) ->
  exists i c tr' y, tr = OFindClient i (V (Some c)) :: tr' ++ [ODeleteCode code y] /\ (forall code' y', ~ In (ODeleteCode code' y') tr').
Proof. exact p_code_deleted_endpoint. Qed.
Print Assumptions C51_code_deleted_endpoint.
Example C51_example :
  let fails T (e : eff T) : res T := match e in eff T return res T with CreateAT _ _ _ => X (Py (Foreign 7)) | e => answers web (Some alice) (good_code [lit "openid"]) (good_rt []) _ e end in
  let run := scripted fails (token_endpoint ref_env prov oidc (code_req the_code)) in
  exec (token_endpoint ref_env prov oidc (code_req the_code)) (fst run) (snd run) /\ snd run = X (Py (Foreign 7)) /\
  names (fst run) = ["find_client"; "get_authorization_code"; "utcnow"; "find_user"; "create_access_token"; "delete_authorization_code"]%string /\
  param "code" (rq_data (code_req the_code)) = Some the_code.
Proof. intros fails run. split; [apply scripted_exec|]. wits. Qed.

(** C55.  The premise excludes an application that raises an OAuth2Error whose headers are not a dict. *)
Theorem C55_token_response : forall E p hs r tr x, exec (token_endpoint E p hs r) tr (V x) -> dict_errors tr ->
  header_is x "Cache-Control" "no-store" /\ header_is x "Pragma" "no-cache" /\
  (no_oauth_raise tr -> header_is x "Content-Type" "application/json") /\
  ((rs_status x = 200 /\ exists d a c o sc, json_body x d /\ In (OCreateAT c o sc (V a)) tr /\
      lookup (lit "access_token") d = Some (PStr a) /\ lookup (lit "token_type") d = Some (PStr (lit "Bearer")) /\ no_null d) \/
   (rs_status x = 400 /\ exists d code, json_body x d /\ lookup (lit "error") d = Some (PStr code) /\ no_null d /\
      (no_oauth_raise tr -> In code token_error_codes))).
Proof. exact p_token_response. Qed.
Print Assumptions C55_token_response.
Example C55_example : status_of (result_of run2) = 200 /\ member "token_type" (body_of (result_of run2)) = PStr (lit "Bearer") /\
  dict_errors (trace_of run2) /\ status_of (result_of (run_cc [L "scope" "nonsense"])) = 400 /\
  body_of (result_of (run_cc [L "scope" "nonsense"])) = Ok (PDict [(lit "error", PStr (lit "invalid_scope")); (lit "error_description", PStr (lit "Unsupported scope ""nonsense""."))]) /\
  header_is (response_of (result_of (run_cc [L "scope" "nonsense"]))) "Cache-Control" "no-store".
Proof.
  split; [wit|]. split; [wit|]. split; [|wits]. intros o e Hin Hr. assert (Hn : no_raise (trace_of run2)) by (apply no_raise_at; wit).
  rewrite (Hn _ Hin) in Hr. discriminate.
Qed.

(** C56 is refuted. *)
Theorem C56_raises_refuted : forall e, In e [KeyError; UnicodeEncodeError; ValueError; TypeError] ->
  exists r tr, exec (token_endpoint ref_env prov oidc r) tr (X (Py e)) /\ no_raise tr.
Proof. exact p_raises. Qed.
Print Assumptions C56_raises_refuted.
(** Every authenticated code exchange without a code raises ... *)
Theorem C56_missing_code_refuted : forall E p hs r tr x i c, exec (token_endpoint E p hs r) tr x -> In (OFindClient i (V (Some c))) tr -> presents r i c ->
  data_has r "grant_type" (lit "authorization_code") -> data_lacks r "code" -> In (lit "authorization_code") (cl_grants c) -> x = X (Py KeyError).
Proof. exact p_missing_code_raises. Qed.
Print Assumptions C56_missing_code_refuted.
(** ... and so does, after the tokens have been created, every exchange of a code without scopes when a hook is registered. *)
Theorem C56_no_scopes_refuted : forall E p hs r tr x c o a, exec (token_endpoint E p hs r) tr x -> In (OCreateAT c o [] (V a)) tr -> hk_response hs <> [] ->
  data_has r "grant_type" (lit "authorization_code") -> (forall o, In o tr -> raised o = None) -> x = X (Py KeyError).
Proof. exact p_empty_scope_raises. Qed.
Print Assumptions C56_no_scopes_refuted.
(** The revocation endpoint returns None. *)
Theorem C56_revocation_none_refuted : exists r tr, exec (revocation_endpoint r) tr (V None) /\ no_raise tr.
Proof. exact wit_revoke_none. Qed.
Print Assumptions C56_revocation_none_refuted.
(** What else can happen, without hooks: nothing. *)
Theorem C56_token_partial : forall E p hs r tr e, exec (token_endpoint E p hs r) tr (X e) -> no_raise tr -> hk_response hs = [] -> scalar_data (rq_data r) -> texts_ok tr ->
  (e = Py ValueError /\ bad_basic r) \/
  (e = Py KeyError /\ data_has r "grant_type" (lit "authorization_code") /\ data_lacks r "code") \/
  (e = Py UnicodeEncodeError /\ exists code ac v, In (OGetCode code (V (Some ac))) tr /\ ac_method ac = lit "S256" /\
     data_has r "code_verifier" v /\ ~ Forall (fun c => c < 128) v) \/
  (e = Py TypeError /\ exists code ac t, In (OGetCode code (V (Some ac))) tr /\ ac_exp ac = Aware t) \/
  (e = Py TypeError /\ exists token t d, In (OGetRT token (V (Some t))) tr /\ rt_exp t = Aware d).
Proof. exact p_token_raises. Qed.
Print Assumptions C56_token_partial.
Theorem C56_revocation_partial : forall r tr x, exec (revocation_endpoint r) tr x -> no_raise tr ->
  (exists z, x = V (Some z)) \/ (x = V None /\ form_lacks r "token") \/ (x = X (Py ValueError) /\ bad_basic r).
Proof. exact p_revocation_raises. Qed.
Print Assumptions C56_revocation_partial.
Example C56_example : raises no_code_req KeyError /\ raises (code_req the_code) KeyError /\
  (exists z, result_of (go (token_endpoint ref_env prov no_hooks (code_req the_code)) (world_of run1)) = V z) /\
  exists z, result_of (run_revoke (basic "web" "s3cret") [L "token" "tok8"]) = V (Some z).
Proof. split; [exact wit_raise_code|]. split; [exact (proj1 wit_raise_scope)|]. split; eexists; wit. Qed.

(** C57 *)
Theorem C57_registered_grants : forall E p hs r tr x o, exec (token_endpoint E p hs r) tr x -> In o tr -> creates_at o = true \/ creates_rt o = true ->
  exists g i c tr', data_has r "grant_type" (grant_type g) /\ In g (pv_grants p) /\ In (grant_type g) (cl_grants c) /\
    tr = OFindClient i (V (Some c)) :: tr' /\ authenticates r i c /\
    ((exists ow sc y, o = OCreateAT c ow sc y) \/ ((exists ow sc y, o = OCreateRT c ow sc y) /\ In (lit "refresh_token") (cl_grants c))).
Proof. exact p_registered_grants. Qed.
Print Assumptions C57_registered_grants.
Example C57_example : existsb creates_at (trace_of run2) = true /\
  (let run := go (token_endpoint ref_env prov oidc (token_req [] [L "client_id" "app"; L "grant_type" "refresh_token"; L "refresh_token" "tok8"])) (world_of run2) in
   body_of (result_of run) = Ok (PDict [(lit "error", PStr (lit "unauthorized_client"))]) /\ names (trace_of run) = ["find_client"]%string) /\
  (let run := go (token_endpoint ref_env other oidc (refresh_req (lit "tok8"))) (world_of run2) in
   member "error" (body_of (result_of run)) = PStr (lit "unsupported_grant_type") /\ names (trace_of run) = []).
Proof. split; [wit|]. split; [wits|wits]. Qed.

(** C58 *)
Theorem C58_refresh : forall E p hs r tr x o, order_ok E -> exec (token_endpoint E p hs r) tr x ->
  data_has r "grant_type" (lit "refresh_token") -> In o tr -> creates_at o = true \/ creates_rt o = true ->
  exists i c token t now off d ou rest sc,
    tr = OFindClient i (V (Some c)) :: OGetRT token (V (Some t)) :: ONow (V (now, off)) :: OFindUser (rt_user t) (V ou) :: rest /\
    authenticates r i c /\ data_has r "refresh_token" token /\ rt_client t = cl_id c /\ rt_exp t = Naive d /\ (now < d)%Z /\
    ((exists y, o = OCreateAT c (owner_of ou) sc y) \/
     ((exists y, o = OCreateRT c (owner_of ou) sc y) /\ In (lit "refresh_token") (cl_grants c))) /\
    (restricts c -> incl sc (rt_scopes t)) /\
    (forall s w, restricts c -> data_has r "scope" s -> token_of w s -> forall y, In y sc ->
       token_of y s /\ In y (cf_scopes (pv_config p)) /\ In w (rt_scopes t)).
Proof. exact p_refresh_grant. Qed.
Print Assumptions C58_refresh.
Example C58_example : order_ok ref_env /\ exec (token_endpoint ref_env prov oidc (refresh_req (lit "tok8"))) (trace_of run3) (result_of run3) /\
  names (trace_of run3) = ["find_client"; "get_refresh_token"; "utcnow"; "find_user"; "create_access_token"; "create_refresh_token"]%string /\
  (let run scope := go (token_endpoint ref_env prov oidc (token_req (basic "web" "s3cret") [L "grant_type" "refresh_token"; L "refresh_token" "tok8"; (lit "scope", scope)])) (world_of run2) in
   member "scope" (body_of (result_of (run (lit "email")))) = PStr (lit "email") /\
   member "error" (body_of (result_of (run (lit "email profile")))) = PStr (lit "invalid_scope")).
Proof. split; [intros l x; reflexivity|]. split; [exact run3_exec|]. split; [wit|]. wits. Qed.

(** C59 is refuted for the refresh grant: the result of find_user is not checked. *)
Theorem C59_no_user_refuted : exists r tr x sc a, exec (token_endpoint ref_env prov oidc r) tr (V x) /\ rs_status x = 200 /\
  In (OFindUser (lit "alice") (V None)) tr /\ In (OCreateAT web OwnNone sc (V a)) tr.
Proof. exact wit_no_user. Qed.
Print Assumptions C59_no_user_refuted.
Theorem C59_code_partial : forall E p hs r tr x c o sc y, (forall b, bytes_ok (e_sha256 E b)) ->
  exec (token_endpoint E p hs r) tr x -> data_has r "grant_type" (lit "authorization_code") -> In (OCreateAT c o sc y) tr ->
  exists i u, o = OwnUser u /\ In (OFindUser i (V (Some u))) tr.
Proof. exact p_code_user. Qed.
Print Assumptions C59_code_partial.
Theorem C59_refresh_partial : forall E p hs r tr x c o sc y, order_ok E ->
  exec (token_endpoint E p hs r) tr x -> data_has r "grant_type" (lit "refresh_token") -> In (OCreateAT c o sc y) tr ->
  exists i ou, In (OFindUser i (V ou)) tr /\ o = match ou with Some u => OwnUser u | None => OwnNone end.
Proof. exact p_refresh_user. Qed.
Print Assumptions C59_refresh_partial.
Example C59_example : exists u, In (OFindUser (lit "alice") (V (Some u))) (trace_of run2) /\ us_id u = lit "alice".
Proof. exists alice. split; [apply nth_error_In with (n := 3%nat); wit|reflexivity]. Qed.

(** C60 is refuted: the token endpoint never revokes anything; with the example adapter every refresh token stays ... *)
Theorem C60_no_revocation_refuted : forall E p hs r tr x, exec (token_endpoint E p hs r) tr x -> forall c t h y, ~ In (ORevokeToken c t h y) tr.
Proof. exact p_token_no_revoke. Qed.
Print Assumptions C60_no_revocation_refuted.
Theorem C60_token_survives_refuted : forall E C aware p hs r tr x s s' t v, exec (token_endpoint E p hs r) tr x -> ex_steps C aware s tr s' ->
  lookup t (st_rts s) = Some v -> lookup t (st_rts s') = Some v.
Proof. exact p_refresh_survives. Qed.
Print Assumptions C60_token_survives_refuted.
(** ... and can be used again and again. *)
Theorem C60_refresh_again_refuted : status_of (result_of run2) = 200 /\ member "refresh_token" (body_of (result_of run2)) = PStr (lit "tok8") /\
  status_of (result_of run3) = 200 /\ member "refresh_token" (body_of (result_of run3)) = PStr (lit "tok8") /\
  status_of (result_of run4) = 200.
Proof. exact wit_refresh_twice. Qed.
Print Assumptions C60_refresh_again_refuted.
Example C60_example : (match lookup (lit "tok8") (st_rts (w_store (world_of run2))) with Some t => eqs (rt_client t) (lit "web") | None => false end = true) /\
  exec (token_endpoint ref_env prov oidc (refresh_req (lit "tok8"))) (trace_of run3) (result_of run3).
Proof. split; [wit|exact run3_exec]. Qed.

(** C61 *)
Theorem C61_client_credentials : forall E p hs r tr x o, exec (token_endpoint E p hs r) tr x -> data_has r "grant_type" (lit "client_credentials") ->
  In o tr -> creates_at o = true \/ creates_rt o = true ->
  exists i c s req y, tr = [OFindClient i (V (Some c)); o] /\ authenticates r i c /\
    (cl_auth_method c = lit "client_secret_basic" \/ cl_auth_method c = lit "client_secret_post") /\
    s <> [] /\ cl_secret c = Some s /\ o = OCreateAT c (OwnClient c) (cl_allowed c req) y /\
    (req = None \/ exists l, req = Some l /\ (forall w, In w l <-> requested r w) /\
       incl l (cf_scopes (pv_config p)) /\ incl l (cl_allowed c req)).
Proof. exact p_client_credentials. Qed.
Print Assumptions C61_client_credentials.
Theorem C61_no_refresh_token : forall E p hs r tr x, exec (token_endpoint E p hs r) tr x -> data_has r "grant_type" (lit "client_credentials") ->
  (forall c o sc y, ~ In (OCreateRT c o sc y) tr) /\
  (forall z, x = V z -> exists d, json_body z d /\ lookup (lit "refresh_token") d = None).
Proof. exact p_cc_no_refresh. Qed.
Print Assumptions C61_no_refresh_token.
Example C61_example : names (trace_of (run_cc [L "scope" "openid"])) = ["find_client"; "create_access_token"]%string /\
  status_of (result_of (run_cc [L "scope" "openid"])) = 200 /\ member "refresh_token" (body_of (result_of (run_cc [L "scope" "openid"]))) = PNone /\
  (let run := go (token_endpoint ref_env prov oidc (token_req [] [L "client_id" "app"; L "grant_type" "client_credentials"])) world0 in
   member "error" (body_of (result_of run)) = PStr (lit "invalid_client") /\ names (trace_of run) = []).
Proof. wits. Qed.

(** C62 is refuted: without a scope parameter the client gets all scopes registered for it, and a refresh token all of its own. *)
Theorem C62_unsupported_scope_refuted : exists r tr x c o sc a, exec (token_endpoint ref_env prov oidc r) tr (V x) /\ rs_status x = 200 /\
  In (OCreateAT c o sc (V a)) tr /\ In (lit "admin") sc /\ ~ In (lit "admin") (cf_scopes (pv_config prov)).
Proof. exact wit_unsupported_scope. Qed.
Print Assumptions C62_unsupported_scope_refuted.
Theorem C62_unsupported_refresh_refuted : exists r tr x c o sc a, exec (token_endpoint ref_env prov oidc r) tr (V x) /\ rs_status x = 200 /\
  data_has r "grant_type" (lit "refresh_token") /\
  In (OCreateAT c o sc (V a)) tr /\ In (lit "admin") sc /\ ~ In (lit "admin") (cf_scopes (pv_config prov)).
Proof. exact wit_unsupported_refresh. Qed.
Print Assumptions C62_unsupported_refresh_refuted.
Theorem C62_supported_partial : forall E p hs r tr x c o sc y s w, order_ok E -> exec (token_endpoint E p hs r) tr x -> In (OCreateAT c o sc y) tr ->
  data_has r "grant_type" (lit "client_credentials") \/ data_has r "grant_type" (lit "refresh_token") ->
  restricts c -> data_has r "scope" s -> token_of w s -> incl sc (cf_scopes (pv_config p)).
Proof. exact p_scope_supported. Qed.
Print Assumptions C62_supported_partial.
Example C62_example : data_has (cc_req [L "scope" "openid"]) "scope" (lit "openid") /\ token_of (lit "openid") (lit "openid") /\
  existsb creates_at (trace_of (run_cc [L "scope" "openid"])) = true.
Proof.
  split; [wit|]. split; [|wit]. split; [discriminate|]. split; [apply nowhite; repeat constructor|]. exists [], []. split; [reflexivity|]. split; left; reflexivity.
Qed.

(** C63 *)
Theorem C63_revocation_sound : forall r tr x c t h y, exec (revocation_endpoint r) tr x -> In (ORevokeToken c t h y) tr ->
  exists i, tr = [OFindClient i (V (Some c)); ORevokeToken c t h y] /\ authenticates r i c /\ form_has r "token" t /\
    h = lookup (lit "token_type_hint") (form r) /\ (h = None \/ h = Some (lit "access_token") \/ h = Some (lit "refresh_token")).
Proof. exact p_revoke_sound. Qed.
Print Assumptions C63_revocation_sound.
Theorem C63_denied : forall r tr x, exec (revocation_endpoint r) tr (V x) -> no_oauth_raise tr ->
  (forall i c, In (OFindClient i (V (Some c))) tr -> ~ authenticates r i c) ->
  exists z d, x = Some z /\ rs_status z = 401 /\ json_body z d /\ lookup (lit "error") d = Some (PStr (lit "invalid_client")) /\
    forall c t h y, ~ In (ORevokeToken c t h y) tr.
Proof. exact p_revoke_denied. Qed.
Print Assumptions C63_denied.
Theorem C63_hint : forall r tr x i c t h, exec (revocation_endpoint r) tr x -> In (OFindClient i (V (Some c))) tr -> presents r i c ->
  form_has r "token" t -> form_has r "token_type_hint" h -> h <> lit "access_token" -> h <> lit "refresh_token" ->
  tr = [OFindClient i (V (Some c))] /\
  exists z d, x = V (Some z) /\ rs_status z = 400 /\ json_body z d /\ lookup (lit "error") d = Some (PStr (lit "unsupported_token_type")).
Proof. exact p_revoke_hint. Qed.
Print Assumptions C63_hint.
Example C63_example :
  names (trace_of (run_revoke (basic "web" "s3cret") [L "token" "tok8"])) = ["find_client"; "revoke_token"]%string /\
  (match result_of (run_revoke (basic "web" "guess") [L "token" "tok8"]) with V (Some z) => rs_status z | _ => 0 end) = 401 /\
  names (trace_of (run_revoke (basic "web" "guess") [L "token" "tok8"])) = ["find_client"]%string /\
  (match result_of (run_revoke [] [L "token" "tok8"]) with V (Some z) => rs_status z | _ => 0 end) = 401 /\
  (match result_of (run_revoke (basic "web" "s3cret") [L "token" "tok8"; L "token_type_hint" "id_token"]) with V (Some z) => rs_status z | _ => 0 end) = 400.
Proof. wits. Qed.

(** C64.  The operations of the adapter may fail. *)
Theorem C64_only_own_token : forall C aware r tr x s s', exec (revocation_endpoint r) tr x -> ex_steps C aware s tr s' ->
  st_clients s' = st_clients s /\ st_users s' = st_users s /\ st_codes s' = st_codes s /\
  (forall k v, In (k, v) (st_rts s') -> In (k, v) (st_rts s)) /\
  (forall k v, In (k, v) (st_rts s) -> In (k, v) (st_rts s') \/
     (form_has r "token" k /\ exists i c, authenticates r i c /\ In c (st_clients s) /\ rt_client v = cl_id c)).
Proof. exact p_revoke_store. Qed.
Print Assumptions C64_only_own_token.
Theorem C64_removed : forall C aware r tr z s s' t, exec (revocation_endpoint r) tr (V (Some z)) -> rs_status z = 200 ->
  ex_steps C aware s tr s' -> form_has r "token" t ->
  exists i c, authenticates r i c /\ In c (st_clients s) /\ forall v, In (t, v) (st_rts s') -> rt_client v <> cl_id c.
Proof. exact p_revoke_removes. Qed.
Print Assumptions C64_removed.
Theorem C64_idempotent : forall C aware r tr x s s' tr2 x2 s2, exec (revocation_endpoint r) tr (V x) -> ex_steps C aware s tr s' ->
  exec (revocation_endpoint r) tr2 x2 -> ex_steps C aware s' tr2 s2 -> s2 = s'.
Proof. exact p_revoke_idempotent. Qed.
Print Assumptions C64_idempotent.
Example C64_example : ex_steps light false (w_store (world_of run2)) (trace_of (run_revoke (basic "web" "s3cret") [L "token" "tok8"]))
    (w_store (world_of (run_revoke (basic "web" "s3cret") [L "token" "tok8"]))) /\
  keys (st_rts (w_store (world_of run2))) = [lit "tok8"] /\
  keys (st_rts (w_store (world_of (run_revoke (basic "web" "s3cret") [L "token" "tok8"])))) = [] /\
  keys (st_rts (w_store (world_of (run_revoke [] [L "token" "tok8"; L "client_id" "post"; L "client_secret" "hush"])))) = [lit "tok8"].
Proof. split; [unfold run_revoke; apply go_steps|]. wits. Qed.

(** C70.  A successful revocation answers with the JSON text null, which is no member. *)
Theorem C70_token : forall E p hs r tr x, exec (token_endpoint E p hs r) tr (V x) ->
  no_null (rs_headers x) /\ exists d, json_body x d /\ no_null d.
Proof. exact p_token_full. Qed.
Print Assumptions C70_token.
Theorem C70_revocation : forall r tr x, exec (revocation_endpoint r) tr (V (Some x)) ->
  no_null (rs_headers x) /\ (rs_body x = lit "null" \/ exists d, json_body x d /\ no_null d).
Proof. exact p_revocation_full. Qed.
Print Assumptions C70_revocation.
Theorem C70_authorization : forall E p hs r tr x, exec (authorization_endpoint E p hs r) tr (V x) -> no_null (rs_headers x) /\ rs_body x = [].
Proof. exact p_authorization_full. Qed.
Print Assumptions C70_authorization.
Theorem C70_consent : forall p r tr x, exec (get_consent_data p r) tr (V (ConsentRedirect x)) -> no_null (rs_headers x) /\ rs_body x = [].
Proof. exact p_consent_full. Qed.
Print Assumptions C70_consent.
Example C70_example : status_of (result_of (run_cc [L "scope" "openid"])) = 200 /\
  (match body_of (result_of (run_cc [L "scope" "openid"])) with Ok (PDict d) => keys d | _ => [] end) = [lit "access_token"; lit "token_type"; lit "expires_in"] /\
  (match result_of (run_revoke (basic "web" "s3cret") [L "token" "tok8"]) with V (Some z) => rs_body z | _ => [] end) = lit "null".
Proof. wits. Qed.
