(** The properties of the example application: C98-C103. *)
From Coq Require Import String Ascii List NArith ZArith Bool Arith.
From Verif Require Import Base BaseFacts Utf8 SpecCodec Json Url Webtools Crypto Jwk Prog Http OAuth SpecOAuth SpecHistory SpecFlow Example OAuthRef OAuthWit FlowWit App SpecUrl UrlWriteFacts SpecApp AppFacts AppWit.
Import ListNotations.
Open Scope string_scope.
Open Scope list_scope.
Open Scope N_scope.

(** C98.  However the requests interleave and wherever they stop, and however often refresh tokens were exchanged: a token for
    a user goes back to an authorization request with a session of this user, which was started by a request with the
    password and not ended in between. *)
Theorem C98_tokens_need_a_login : forall E p hs C aware qs log t t' n o c u sc, (forall b, bytes_ok (e_sha256 E b)) -> order_ok E ->
  app_running E p hs qs log -> app_steps C aware t (map snd log) t' -> fresh_tables t ->
  In (n, OLib o) log -> (exists y, o = OCreateAT c (OwnUser u) sc y) \/ (exists y, o = OCreateRT c (OwnUser u) sc y) ->
  exists m w q0 sid, nth_error qs m = Some (AuthorizePage, w) /\ handed_over w q0 /\ granted_by q0 (lib_calls (acalls_of m log)) c u sc /\
    wb_cookie w = Some (us_id u, sid) /\ logged_in t qs log (us_id u) sid m.
Proof. exact p_login. Qed.
Print Assumptions C98_tokens_need_a_login.
Theorem C98_cookies_need_the_password : forall E p hs C aware g w tr l uid sid t t', aexec (application E p hs g w) tr (V (RRedirect l (Some (uid, sid)))) ->
  app_steps C aware t tr t' -> submits_password t uid (g, w) /\ In (sid, uid) (tb_sessions t').
Proof. exact p_cookie. Qed.
Print Assumptions C98_cookies_need_the_password.
Example C98_example : app_running ref_env prov oidc visits visit_log /\ app_steps light false tables0 (map snd visit_log) (aw_tables (after visits aworld0)) /\ fresh_tables tables0 /\
  (exists y, In (2%nat, OLib (OCreateAT OAuthRef.web (OwnUser alice) [lit "openid"; lit "email"] (V y))) visit_log) /\
  (exists l, aresult (ago login_again aworld0) = V (RRedirect l (Some (lit "alice", lit "tok2")))).
Proof. split; [exact visits_running|]. split; [exact visits_steps|]. split; [exact tables0_fresh|]. split; [exact visits_token|]. eexists. wit. Qed.

(** C99.  The logout deletes the refresh tokens and the sessions of the user; *)
Theorem C99_logout_deletes : forall E p hs w tr r sid uid u, aexec (application E p hs LogoutPage w) tr (V r) -> is_get w = true -> In (OGetSession sid uid (V (Some (Some u)))) tr ->
  wb_cookie w = Some (uid, sid) /\ tr = [OGetSession sid uid (V (Some (Some u))); ODropRefresh uid (V tt); ODropSessions uid (V tt)] /\
  exists l, header_text (login_url w) l /\ r = RRedirect l None.
Proof. exact p_logout. Qed.
Print Assumptions C99_logout_deletes.
(** a session of the user that is found afterwards was started since, by a request with the password; *)
Theorem C99_sessions_end : forall E p hs C aware qs log t t' l1 k l2 m l3 sid uid y, app_running E p hs qs log -> app_steps C aware t (map snd log) t' ->
  log = l1 ++ (k, ODropSessions uid (V tt)) :: l2 ++ (m, OGetSession sid uid (V (Some y))) :: l3 ->
  exists j q, In (j, ONewSession sid uid (V tt)) l2 /\ nth_error qs j = Some q /\ submits_password t uid q.
Proof. exact p_logout_session. Qed.
Print Assumptions C99_sessions_end.
(** and a refresh token of the user that is found afterwards was created since. *)
Theorem C99_refresh_tokens_end : forall C aware t t' l1 l2 l3 k rt uid, app_steps C aware t (l1 ++ ODropRefresh uid (V tt) :: l2 ++ OLib (OGetRT k (V (Some rt))) :: l3) t' -> rt_user rt = uid ->
  exists c o sc, In (OLib (OCreateRT c o sc (V (Some k)))) l2 /\ rt_holds rt c o sc.
Proof. exact p_logout_refresh. Qed.
Print Assumptions C99_refresh_tokens_end.
Example C99_example : app_running ref_env prov oidc visits visit_log /\ app_steps light false tables0 (map snd visit_log) (aw_tables (after visits aworld0)) /\
  (exists l1 k l2 m l3 y, visit_log = l1 ++ (k, ODropSessions (lit "alice") (V tt)) :: l2 ++ (m, OGetSession (lit "tok26") (lit "alice") (V (Some y))) :: l3) /\
  (exists l1 l2 l3 rt, map snd visit_log = l1 ++ ODropRefresh (lit "alice") (V tt) :: l2 ++ OLib (OGetRT (lit "tok37") (V (Some rt))) :: l3 /\ rt_user rt = lit "alice") /\
  (exists l, aresult (ago (LogoutPage, logout_visit cookie1) (after (firstn 3 visits) aworld0)) = V (RRedirect l None)).
Proof.
  split; [exact visits_running|]. split; [exact visits_steps|]. split; [do 6 eexists; apply (two_entries _ 23 4); wit|]. split; [|eexists; wit].
  do 4 eexists. split; [apply (two_entries _ 22 23); wit|wit].
Qed.

(** C100 is refuted: a code that was issued before the logout still gives tokens, without another login. *)
Theorem C100_codes_survive_logout_refuted : exists qs log t t' l1 k l2 code ad sc y n w z, app_running ref_env prov oidc qs log /\ app_steps light false t (map snd log) t' /\ fresh_tables t /\
  log = l1 ++ (k, ODropSessions (us_id alice) (V tt)) :: l2 /\ nth_error (map fst qs) k = Some LogoutPage /\
  In (1%nat, OLib (OSaveCode code ad OAuthRef.web alice (V tt))) l1 /\ In (n, OLib (OCreateAT OAuthRef.web (OwnUser alice) sc (V y))) l2 /\
  (forall j sid v, ~ In (j, ONewSession sid (us_id alice) v) l2) /\ nth_error qs n = Some (TokenPage, w) /\
  aexec (application ref_env prov oidc TokenPage w) (acalls_of n log) (V (RResponse z)) /\ rs_status z = 200.
Proof. exact wit_late. Qed.
Print Assumptions C100_codes_survive_logout_refuted.

(** C101.  Without a session an authorization request leads to the login, and a login at that address leads back to it. *)
Theorem C101_login_and_back : forall E p hs w tr x, aexec (application E p hs AuthorizePage w) tr x -> is_get w = true -> is_origin (wb_base w) -> is_url (wb_url w) -> wb_url w <> [] ->
  (tr = [] \/ exists sid uid, tr = [OGetSession sid uid (V None)]) ->
  exists L, x = V (RRedirect L None) /\
    forall w' tr' l ck, wb_url w' = L -> aexec (application E p hs LoginPage w') tr' (V (RRedirect l (Some ck))) -> l = wb_url w.
Proof. exact p_round_trip. Qed.
Print Assumptions C101_login_and_back.
Example C101_example : atrace sent = [] /\ is_origin host /\ is_url (host ++ authz_path) /\
  aresult back = V (RRedirect (host ++ authz_path) (Some (lit "alice", lit "tok2"))) /\ wb_url followed = redirected (aresult sent).
Proof. split; [wit|]. split; [exact host_origin|]. split; [apply url_at; wit|]. split; [wit|reflexivity]. Qed.

(** C102 is refuted: whatever address a link to the login names, a user who logs in there is sent to it. *)
Theorem C102_open_redirect_refuted : forall E p hs w tr l ck target, aexec (application E p hs LoginPage w) tr (V (RRedirect l (Some ck))) -> is_origin (wb_base w) ->
  url_with (login_url w) [(lit "next", PStr target)] (wb_url w) -> is_url target -> target <> [] -> l = target.
Proof. exact p_open_redirect. Qed.
Print Assumptions C102_open_redirect_refuted.
Example C102_example : aresult lured = V (RRedirect (lit "https://evil.example/") (Some (lit "alice", lit "tok2"))) /\ is_origin host /\
  url_with (login_url (login_at evil)) [(lit "next", PStr evil)] (wb_url (login_at evil)) /\ is_url evil.
Proof. split; [wit|]. split; [exact host_origin|]. split; [apply urlencode_iff; wit|apply url_at; wit]. Qed.

(** C103 is refuted: revocation by an authenticated client that sends no token ends in an AttributeError, as the endpoint
    returns nothing; *)
Theorem C103_revocation_refuted : exists w tr, aexec (application ref_env prov oidc RevokePage w) tr (X (Py AttributeError)) /\ ano_raise tr.
Proof. exact wit_no_token. Qed.
Print Assumptions C103_revocation_refuted.
(** and a HEAD request for the authorization endpoint by a user who is logged in ends in a RuntimeError. *)
Theorem C103_head_refuted : forall E p hs w tr x sid uid u, aexec (application E p hs AuthorizePage w) tr x -> wb_method w = lit "HEAD" ->
  In (OGetSession sid uid (V (Some (Some u)))) tr -> x = X (Py RuntimeError).
Proof. exact p_head_raises. Qed.
Print Assumptions C103_head_refuted.
(** The pages that do not call the library always answer, *)
Theorem C103_own_pages_partial : forall E p hs g w tr x, aexec (application E p hs g w) tr x -> ano_raise tr -> is_url (wb_base w) -> scalar_str (wb_url w) ->
  g = Home \/ g = LoginPage \/ g = LogoutPage \/ g = ErrorPage -> exists r, x = V r.
Proof. exact p_pages_answer. Qed.
Print Assumptions C103_own_pages_partial.
(** and the revocation endpoint does if the request is well formed and names a token. *)
Theorem C103_revocation_partial : forall E p hs w tr x, aexec (application E p hs RevokePage w) tr x -> ano_raise tr ->
  (exists r, x = V r) \/ x = X (Py RuntimeError) \/ x = X (Py ValueError) \/
  exists u r, make_request (wb_method w) (wb_url w) (wb_headers w) (Some (wb_body w)) u = Ok r /\ x = X (Py AttributeError) /\ form_lacks r "token".
Proof. exact p_revoke_answers. Qed.
Print Assumptions C103_revocation_partial.
Example C103_example : aresult head_run = X (Py RuntimeError) /\ In (OGetSession (lit "tok2") (lit "alice") (V (Some (Some alice)))) (atrace head_run) /\
  ano_raise (atrace back) /\ (exists r, aresult back = V r) /\
  (exists z, aresult (ago (RevokePage, revoke_visit [L "token" "tok13"]) (after (firstn 3 visits) aworld0)) = V (RResponse z)).
Proof. split; [wit|]. split; [left; wit|]. split; [apply ano_raise_at; wit|]. split; eexists; wit. Qed.
