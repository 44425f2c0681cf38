(** The properties about how long codes, tokens and sessions live, and about error responses: C104-C113. *)
From Coq Require Import String Ascii List NArith ZArith Bool Arith.
From Verif Require Import Base BaseFacts Utf8 SpecCodec Json Url Webtools Crypto Jwk Jws Jwt Prog Http OAuth SpecOAuth SpecHistory SpecFlow Example OAuthRef OAuthWit HistoryWit FlowWit RequestFacts ResponseFacts App SpecApp AppFacts AppWit SpecLife LifeFacts LifeWit.
Import ListNotations.
Open Scope string_scope.
Open Scope list_scope.
Open Scope N_scope.

(** C104 is refuted: while the example application has a refresh token of a client and a user it hands out this one, whatever
    its expiration; *)
Theorem C104_same_token_refuted : forall E C aware p hs r tr x s s' k v c o sc y, exec (token_endpoint E p hs r) tr x -> ex_steps C aware s tr s' -> NoDup (rt_pairs s) -> In (k, v) (st_rts s) ->
  In (OCreateRT c o sc (V y)) tr -> rt_client v = cl_id c -> owned_by o (rt_user v) -> y = Some k /\ In (k, v) (st_rts s').
Proof. exact p_same_token. Qed.
Print Assumptions C104_same_token_refuted.
(** so that a successful exchange gives a refresh token that is refused as expired. *)
Theorem C104_unusable_refuted : exists r tr z s s1 r' tr' z' s2 k, exec (token_endpoint ref_env prov oidc r) tr (V z) /\ ex_steps light false s tr s1 /\ rs_status z = 200 /\
  member "refresh_token" (json_loads (rs_body z)) = PStr k /\ exec (token_endpoint ref_env prov oidc r') tr' (V z') /\ ex_steps light false s1 tr' s2 /\
  data_has r' "grant_type" (lit "refresh_token") /\ data_has r' "refresh_token" k /\ rs_status z' = 400 /\ member "error_description" (json_loads (rs_body z')) = PStr (lit "Refresh Token expired.").
Proof. exact wit_unusable. Qed.
Print Assumptions C104_unusable_refuted.
(** The token is stored, for the client and the user. *)
Theorem C104_stored_partial : forall E C aware p hs r tr x s s' c o sc y, exec (token_endpoint E p hs r) tr x -> ex_steps C aware s tr s' -> In (OCreateRT c o sc (V y)) tr ->
  exists k rt, y = Some k /\ In (k, rt) (st_rts s') /\ rt_client rt = cl_id c /\ owned_by o (rt_user rt).
Proof. exact p_stored. Qed.
Print Assumptions C104_stored_partial.
Example C104_example : NoDup (rt_pairs (w_store (world_of again1))) /\ status_of (result_of again2) = 200 /\ member "refresh_token" (body_of (result_of again2)) = PStr (lit "tok8") /\
  In (OCreateRT OAuthRef.web (OwnUser alice) [lit "openid"; lit "email"] (V (Some (lit "tok8")))) (trace_of again2) /\
  map fst (st_rts (w_store (world_of again1))) = [lit "tok8"].
Proof.
  split; [replace (rt_pairs (w_store (world_of again1))) with [(lit "web", lit "alice")] by wit; constructor; [intros []|constructor]|].
  split; [wit|]. split; [wit|]. split; [apply nth_error_In with (n := 5%nat); wit|wit].
Qed.

(** C105.  Whatever calls the example application makes, in whatever order: if there is at most one refresh token for a
    client and a user before, then also after. *)
Theorem C105_one_refresh_token : forall C aware tr t t', app_steps C aware t tr t' -> NoDup (rt_pairs (tb_store t)) -> NoDup (rt_pairs (tb_store t')).
Proof. exact p_pairs. Qed.
Print Assumptions C105_one_refresh_token.
Example C105_example : app_steps light false tables0 (map snd visit_log) (aw_tables (after visits aworld0)) /\ NoDup (rt_pairs (tb_store tables0)) /\
  rt_pairs (tb_store (aw_tables (after visits aworld0))) = [(lit "web", lit "alice")].
Proof. split; [exact visits_steps|]. split; [constructor|wit]. Qed.

(** C106.  Two runs of the same login attempt, against different accounts, none of which has this address and password: the
    replies are the same. *)
Theorem C106_login_does_not_tell : forall E p hs C aware w tr x t t1 tr' x' t' t1', wb_method w = lit "POST" -> wb_cookie w = None ->
  aexec (application E p hs LoginPage w) tr x -> app_steps C aware t tr t1 -> ano_raise tr -> wrong_login t w ->
  aexec (application E p hs LoginPage w) tr' x' -> app_steps C aware t' tr' t1' -> ano_raise tr' -> wrong_login t' w ->
  x' = x /\ t1 = t /\ exists m, x = V (RPage (lit "login.j2") m).
Proof. exact p_login_same. Qed.
Print Assumptions C106_login_does_not_tell.
Example C106_example : wrong_login tables0 (wrong_visit "a@x.example") /\ wrong_login (aw_tables no_accounts) (wrong_visit "a@x.example") /\ ano_raise (atrace guess) /\ ano_raise (atrace guess_nobody) /\
  aresult guess = V (RPage (lit "login.j2") (Some (lit "Invalid Credentials."))) /\ aresult guess_nobody = V (RPage (lit "login.j2") (Some (lit "Invalid Credentials."))) /\
  (exists a, atrace guess = [OFindAccount (lit "a@x.example") (V (Some a))]) /\ atrace guess_nobody = [OFindAccount (lit "a@x.example") (V None)].
Proof. split; [exact wrong0|]. split; [exact wrong1|]. split; [apply ano_raise_at; wit|]. split; [apply ano_raise_at; wit|]. split; [wit|]. split; [wit|]. split; [eexists; wit|wit]. Qed.

(** C107 is refuted: a GET or HEAD request for the logout page ends the sessions and deletes the refresh tokens of the user, *)
Theorem C107_logout_refuted : forall E p hs C aware w tr r sid uid u t t', aexec (application E p hs LogoutPage w) tr (V r) -> is_get w = true -> In (OGetSession sid uid (V (Some (Some u)))) tr -> app_steps C aware t tr t' ->
  In (sid, uid) (tb_sessions t) /\ (forall s, ~ In (s, uid) (tb_sessions t')) /\ forall k v, In (k, v) (st_rts (tb_store t')) -> rt_user v <> uid.
Proof. exact p_get_logout. Qed.
Print Assumptions C107_logout_refuted.
(** and a GET request for the authorization endpoint gives away a code without asking. *)
Theorem C107_authorize_refuted : exists w tr x t t', aexec (application ref_env prov oidc AuthorizePage w) tr (V x) /\ safe_method (wb_method w) /\ app_steps light false t tr t' /\ st_codes (tb_store t) = [] /\ st_codes (tb_store t') <> [].
Proof. exact wit_get_code. Qed.
Print Assumptions C107_authorize_refuted.
(** All other requests with these methods change nothing. *)
Theorem C107_safe_methods_partial : forall E p hs C aware g w tr x t t', aexec (application E p hs g w) tr x -> app_steps C aware t tr t' -> safe_method (wb_method w) ->
  g <> LogoutPage -> (g = AuthorizePage -> wb_method w = lit "HEAD") -> t' = t.
Proof. exact p_safe. Qed.
Print Assumptions C107_safe_methods_partial.
Example C107_example : (exists l, aresult head_logout = V (RRedirect l None)) /\ atrace head_logout <> [] /\
  tb_sessions (aw_tables (after (firstn 3 visits) aworld0)) = [(lit "tok2", lit "alice")] /\ tb_sessions (aw_tables (aworld_of head_logout)) = [] /\
  length (st_rts (tb_store (aw_tables (after (firstn 3 visits) aworld0)))) = 1%nat /\ st_rts (tb_store (aw_tables (aworld_of head_logout))) = [] /\
  (exists r, aresult (ago (LoginPage, visit "GET" (lit "/auth/login") [] [] cookie1 no_form) (after [login_again] aworld0)) = V r).
Proof. split; [eexists; wit|]. split; [vm_compute; discriminate|]. split; [wit|]. split; [wit|]. split; [wit|]. split; [wit|]. eexists; wit. Qed.

(** C108 is refuted: a login of a user who has a session already gives the cookie of a session that existed before, *)
Theorem C108_session_shared_refuted : forall E p hs C aware g w tr l uid sid t t' s0, aexec (application E p hs g w) tr (V (RRedirect l (Some (uid, sid)))) -> app_steps C aware t tr t' -> In (s0, uid) (tb_sessions t) ->
  In (sid, uid) (tb_sessions t) /\ t' = t.
Proof. exact p_login_reuses. Qed.
Print Assumptions C108_session_shared_refuted.
(** a login of another user gives that of a session which it starts, with an identifier that no session had. *)
Theorem C108_session_started_partial : forall E p hs C aware g w tr l uid sid t t', aexec (application E p hs g w) tr (V (RRedirect l (Some (uid, sid)))) -> app_steps C aware t tr t' -> (forall s, ~ In (s, uid) (tb_sessions t)) ->
  (forall u, ~ In (sid, u) (tb_sessions t)) /\ In (OSessionToken (V sid)) tr /\ tb_sessions t' = (sid, uid) :: tb_sessions t.
Proof. exact p_login_starts. Qed.
Print Assumptions C108_session_started_partial.
Example C108_example : tb_sessions (aw_tables aworld0) = [] /\ (exists l, aresult (ago login_again aworld0) = V (RRedirect l (Some (lit "alice", lit "tok2")))) /\
  tb_sessions (aw_tables (after [login_again] aworld0)) = [(lit "tok2", lit "alice")] /\ (exists l, aresult second_login = V (RRedirect l (Some (lit "alice", lit "tok2")))).
Proof. split; [wit|]. split; [eexists; wit|]. split; [wit|]. eexists; wit. Qed.

(** C109 is refuted for access tokens: the revocation of one is answered with 200 and changes nothing, *)
Theorem C109_access_token_refuted : exists r tr z s s' a tk, exec (revocation_endpoint r) tr (V (Some z)) /\ ex_steps light false s tr s' /\ rs_status z = 200 /\ form_has r "token" a /\
  member "access_token" (body_of (result_of run2)) = PStr a /\ s' = s /\ jwt_decode_str light 1700000001 1700000001 a (Some SECRET_KEY) (PStr (lit "HS256")) true PNone = Ok tk.
Proof. exact wit_revoke_at. Qed.
Print Assumptions C109_access_token_refuted.
(** as does the revocation of anything that is not a stored refresh token. *)
Theorem C109_no_effect_refuted : forall C aware r tr x s s' k, exec (revocation_endpoint r) tr x -> ex_steps C aware s tr s' -> form_has r "token" k -> (forall v, ~ In (k, v) (st_rts s)) -> s' = s.
Proof. exact p_revoke_nothing. Qed.
Print Assumptions C109_no_effect_refuted.
(** A refresh token that its client revoked is refused, unless it is created again; *)
Theorem C109_refresh_token_partial : forall E p hs C aware r tr z s s1 l s2 r' tr' x s3 k, exec (revocation_endpoint r) tr (V (Some z)) -> rs_status z = 200 -> form_has r "token" k -> ex_steps C aware s tr s1 ->
  (forall i c v, authenticates r i c -> In (k, v) (st_rts s) -> rt_client v = cl_id c) ->
  ex_steps C aware s1 l s2 -> (forall c o sc, ~ In (OCreateRT c o sc (V (Some k))) l) ->
  exec (token_endpoint E p hs r') tr' (V x) -> ex_steps C aware s2 tr' s3 -> data_has r' "grant_type" (lit "refresh_token") -> data_has r' "refresh_token" k -> rs_status x <> 200.
Proof. exact p_revoked_endpoint. Qed.
Print Assumptions C109_refresh_token_partial.
(** in any history of the application, one that is found after its client revoked it was created in between. *)
Theorem C109_history_partial : forall C aware t t' l1 l2 l3 c k h rt, app_steps C aware t (l1 ++ OLib (ORevokeToken c k h (V tt)) :: l2 ++ OLib (OGetRT k (V (Some rt))) :: l3) t' -> rt_client rt = cl_id c ->
  exists c' o sc, In (OLib (OCreateRT c' o sc (V (Some k)))) l2 /\ cl_id c' = cl_id c.
Proof. exact p_revoked. Qed.
Print Assumptions C109_history_partial.
Example C109_example : map fst (st_rts (w_store (world_of run2))) = [lit "tok8"] /\ st_rts (w_store (world_of revoke_rt)) = [] /\ option_map rs_status (answer (result_of revoke_rt)) = Some 200 /\
  status_of (result_of after_revocation) = 400 /\ member "error_description" (body_of (result_of after_revocation)) = PStr (lit "Invalid Refresh Token.").
Proof. wits. Qed.

(** C110 is refuted: a code is exchanged, the second use of it is refused, and the refresh token of the first still works
    (the access token can not be revoked at all, C109). *)
Theorem C110_replay_refuted : exists r tr1 z1 tr2 z2 r' tr3 z3 s s1 s2 s3 k, exec (token_endpoint ref_env prov oidc r) tr1 (V z1) /\ ex_steps light false s tr1 s1 /\ rs_status z1 = 200 /\
  member "refresh_token" (json_loads (rs_body z1)) = PStr k /\ data_has r "grant_type" (lit "authorization_code") /\
  exec (token_endpoint ref_env prov oidc r) tr2 (V z2) /\ ex_steps light false s1 tr2 s2 /\ rs_status z2 = 400 /\
  exec (token_endpoint ref_env prov oidc r') tr3 (V z3) /\ ex_steps light false s2 tr3 s3 /\ data_has r' "grant_type" (lit "refresh_token") /\ data_has r' "refresh_token" k /\ rs_status z3 = 200.
Proof. exact wit_replay. Qed.
Print Assumptions C110_replay_refuted.

(** C111 is refuted: a code is accepted a second before it is a day old. *)
Theorem C111_old_code_refuted : exists ch code ad c u s s1 r tr z s2 i y1 y2 off rest, ex_do light false ch (SaveCode code ad c u) s = (V tt, s1) /\
  exec (token_endpoint ref_env prov oidc r) tr (V z) /\ ex_steps light false s1 tr s2 /\ data_has r "code" code /\ rs_status z = 200 /\
  tr = OFindClient i y1 :: OGetCode code y2 :: ONow (V ((ch_now ch + seconds 86399)%Z, off)) :: rest.
Proof. exact wit_old_code. Qed.
Print Assumptions C111_old_code_refuted.
(** It is never accepted when it is a day old. *)
Theorem C111_day_partial : forall E p hs C aware ch code ad c u s s1 l s2 r tr x s3, (forall b, bytes_ok (e_sha256 E b)) -> ex_do C aware ch (SaveCode code ad c u) s = (V tt, s1) -> ex_steps C aware s1 l s2 ->
  (forall ad' c' u', ~ In (OSaveCode code ad' c' u' (V tt)) l) -> exec (token_endpoint E p hs r) tr (V x) -> ex_steps C aware s2 tr s3 ->
  data_has r "grant_type" (lit "authorization_code") -> data_has r "code" code -> rs_status x = 200 ->
  exists i z y now off rest, tr = OFindClient i z :: OGetCode code y :: ONow (V (now, off)) :: rest /\ (now < ch_now ch + seconds 86400)%Z.
Proof. exact p_code_day. Qed.
Print Assumptions C111_day_partial.
Example C111_example : ex_do light false choice1 (SaveCode the_code ad1 OAuthRef.web alice) store0 = (V tt, w_store (world_of run1)) /\ status_of (result_of in_time) = 200 /\
  status_of (result_of too_late) = 400 /\ member "error_description" (body_of (result_of too_late)) = PStr (lit "Expired Authorization Code.").
Proof. split; [exact saved1|]. wits. Qed.

(** C112.  The authorization endpoint redirects with a code or with one of the errors of RFC 6749 section 4.1.2.1, never
    with both; *)
Theorem C112_authorization : forall E p hs r tr x, exec (authorization_endpoint E p hs r) tr (V x) -> made r -> no_oauth_raise tr -> tokens_ok tr ->
  exists uri ps, redirects x uri ps /\
    ((exists code ad c u, In (OSaveCode code ad c u (V tt)) tr /\ In (lit "code", code) ps /\ forall v, ~ In (lit "error", v) ps) \/
     ((forall code, ~ In (lit "code", code) ps) /\ exists v, In (lit "error", v) ps /\ In v authorization_error_codes /\ forall v', In (lit "error", v') ps -> v' = v)).
Proof. exact p_authz_codes. Qed.
Print Assumptions C112_authorization.
(** the redirects for the consent page carry one of these errors; *)
Theorem C112_consent : forall p r tr x, exec (get_consent_data p r) tr (V (ConsentRedirect x)) -> made r -> no_oauth_raise tr ->
  exists uri ps, redirects x uri ps /\ exists v, In (lit "error", v) ps /\ In v authorization_error_codes /\ forall v', In (lit "error", v') ps -> v' = v.
Proof. exact p_consent_codes. Qed.
Print Assumptions C112_consent.
(** the revocation endpoint answers with 200 after a revocation, else with an error of RFC 7009 section 2.2.1, and with 401
    just for invalid_client. *)
Theorem C112_revocation : forall r tr z, exec (revocation_endpoint r) tr (V (Some z)) -> no_oauth_raise tr ->
  (rs_status z = 200 /\ exists c k h, In (ORevokeToken c k h (V tt)) tr) \/
  exists d v, json_body z d /\ lookup (lit "error") d = Some (PStr v) /\ In v revocation_error_codes /\ rs_status z = (if eqs v (lit "invalid_client") then 401 else 400).
Proof. exact p_revocation_codes. Qed.
Print Assumptions C112_revocation.
Example C112_example : made no_scope_req /\ (exists x, result_of consent1 = V (ConsentRedirect x)) /\ no_raise (trace_of consent1) /\ made authz_req /\ no_raise (trace_of run1) /\ status_of (result_of run1) = 303 /\
  option_map rs_status (answer (result_of (run_revoke (basic "web" "s3cret") [L "token" "tok8"; L "token_type_hint" "saml"]))) = Some 400 /\
  option_map rs_status (answer (result_of (run_revoke (basic "web" "wrong") [L "token" "tok8"]))) = Some 401.
Proof.
  split; [unfold no_scope_req; apply req_made; wit|]. split; [eexists; wit|]. split; [apply no_raise_at; wit|]. split; [unfold authz_req; apply req_made; wit|]. split; [apply no_raise_at; wit|].
  wits.
Qed.

(** C113 is refuted: the description of an unknown grant type repeats the text of the request between quotation marks, which
    RFC 6749 section 5.2 excludes. *)
Theorem C113_description_refuted : forall E p hs r tr x t, exec (token_endpoint E p hs r) tr x -> data_has r "grant_type" t -> t <> [] -> (forall g, In g (pv_grants p) -> grant_type g <> t) -> scalar_str t ->
  exists z d desc, x = V z /\ rs_status z = 400 /\ json_body z d /\ lookup (lit "error_description") d = Some (PStr desc) /\ incl t desc /\ ~ Forall description_char desc.
Proof. exact p_description. Qed.
Print Assumptions C113_description_refuted.
Example C113_example : let r := token_req (basic "web" "s3cret") [(lit "grant_type", [233; 34; 92])] in
  data_has r "grant_type" [233; 34; 92] /\ forallb (fun g => negb (eqs (grant_type g) [233; 34; 92])) (pv_grants prov) = true /\
  member "error_description" (body_of (result_of (tok r world0))) = PStr (lit "Unsupported grant_type """ ++ [233; 34; 92] ++ lit """.").
Proof. wits. Qed.
