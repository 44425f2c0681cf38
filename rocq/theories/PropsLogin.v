(** The login and the pages of the example application: C143 and C144. *)
From Coq Require Import String Ascii List NArith ZArith Bool Arith.
From Verif Require Import Base BaseFacts SpecCodec SpecUrl Url Webtools Crypto Jwk Prog Http OAuth SpecReaders SpecHistory Example OAuthRef OAuthWit FlowWit App SpecApp AppFacts AppWit LifeWit UrlWriteFacts SpecLogin LoginFacts LoginWit.
Import ListNotations.
Open Scope string_scope.
Open Scope list_scope.
Open Scope N_scope.

(** C143.  A login of a visitor without a session: *)
Theorem C143_login : forall C aware E p hs w tr x t t', aexec (application E p hs LoginPage w) tr x -> app_steps C aware t tr t' -> ano_raise tr -> wb_method w = chars "POST" -> stranger t w ->
  (~ good_form (wb_form w) -> x = V (RPage (chars "login.j2") None) /\ t' = t) /\
  (good_form (wb_form w) -> (forall a, ~ identifies t w a) -> x = V (RPage (chars "login.j2") (Some (chars "Invalid Credentials."))) /\ t' = t) /\
  (forall a, good_form (wb_form w) -> identifies t w a ->
     exists url sid, leads x url (Some (a_id a, sid)) /\ next_of w url /\ In (sid, a_id a) (tb_sessions t')).
Proof. exact c143. Qed.
Print Assumptions C143_login.
Example C143_example : good_form right_form /\ stranger tables0 (login_at evil) /\ (exists a, identifies tables0 (login_at evil) a) /\ ano_raise (atrace lured) /\
  param_of (wb_url (login_at evil)) (chars "next") (Some evil) /\
  ~ good_form (form_of "a@x.example" "1234567") /\ ~ good_form (form_of "a@x.example" "        ") /\ ~ good_form (form_of " " "correct horse") /\
  aresult lured = V (RRedirect evil (Some (lit "alice", lit "tok2"))) /\
  aresult (try_login (form_of "a@x.example" "correct mule")) = V (RPage (lit "login.j2") (Some (lit "Invalid Credentials."))) /\
  aresult (try_login (form_of "b@x.example" "correct horse")) = V (RPage (lit "login.j2") (Some (lit "Invalid Credentials."))) /\
  aresult (try_login (form_of "a@x.example" "1234567")) = V (RPage (lit "login.j2") None) /\
  aresult (try_login right_form) = V (RRedirect (host ++ lit "/") (Some (lit "alice", lit "tok2"))).
Proof. exact login_example. Qed.
(** Of two accounts with the same address only the first can be used. *)
Theorem C143_second_account : exists t w a, In a (tb_accounts t) /\ a_email a = lf_email (wb_form w) /\ a_password a = lf_password (wb_form w) /\ good_form (wb_form w) /\
  stranger t w /\ wb_method w = chars "POST" /\ exists tr t', aexec (application ref_env prov oidc LoginPage w) tr (V (RPage (chars "login.j2") (Some (chars "Invalid Credentials.")))) /\ app_steps light false t tr t' /\ ano_raise tr.
Proof. exact wit_second_account. Qed.
Print Assumptions C143_second_account.

(** C144.  Which requests get a bare status: those with the session of a user who is no longer there, and those with a
    method that the page does not offer. *)
Theorem C144_status : forall C aware E p hs g w tr x t t', aexec (application E p hs g w) tr x -> app_steps C aware t tr t' -> ano_raise tr ->
  (x = V (RStatus 400) <-> orphan t w) /\ (x = V (RStatus 405) <-> ~ orphan t w /\ ~ In (wb_method w) (offers g)) /\
  (orphan t w \/ ~ In (wb_method w) (offers g) -> t' = t).
Proof. exact c144_status. Qed.
Print Assumptions C144_status.
(** The pages of the application itself *)
Theorem C144_pages : forall C aware E p hs g w tr x t t', aexec (application E p hs g w) tr x -> app_steps C aware t tr t' -> ano_raise tr -> ~ orphan t w -> In (wb_method w) (offers g) ->
  match g with
  | Home => x = V (RPage (chars "index.j2") None) /\ t' = t
  | LoginPage => (wb_method w <> chars "POST" -> stranger t w -> x = V (RPage (chars "login.j2") None) /\ t' = t) /\ (logged_in t w -> leads x (wb_base w ++ chars "/") None /\ t' = t)
  | LogoutPage => (wb_method w = chars "POST" -> leads x (wb_base w ++ chars "/auth/logout") None /\ t' = t) /\
                  (wb_method w <> chars "POST" -> leads x (wb_base w ++ chars "/auth/login") None /\ (stranger t w -> t' = t))
  | ErrorPage => t' = t /\ exists m, x = V (RPage (chars "error.j2") m) /\ forall r, param_of (wb_url w) (chars "error_description") r -> m = r
  | _ => True
  end.
Proof. exact c144_pages. Qed.
Print Assumptions C144_pages.
Example C144_example : let t := aw_tables (after [login_again] aworld0) in
  let see t g m path ck := aresult (ago (g, visit m (lit path) [] [] ck no_form) {| aw_tables := t; aw_count := 9; aw_now := 1700000000000000 |}) in
  logged_in t (logout_visit cookie1) /\ stranger tables0 (logout_visit cookie1) /\ orphan (forgotten t) (logout_visit cookie1) /\
  see (forgotten t) LogoutPage "GET" "/auth/logout" cookie1 = V (RStatus 400) /\ see t TokenPage "GET" "/connect/token" None = V (RStatus 405) /\ see t Home "POST" "/" None = V (RStatus 405) /\
  see t Home "HEAD" "/" cookie1 = V (RPage (lit "index.j2") None) /\ see t LoginPage "GET" "/auth/login" cookie1 = V (RRedirect (host ++ lit "/") None) /\
  see t LoginPage "GET" "/auth/login" None = V (RPage (lit "login.j2") None) /\ see t LogoutPage "POST" "/auth/logout" cookie1 = V (RRedirect (host ++ lit "/auth/logout") None) /\
  see t LogoutPage "GET" "/auth/logout" cookie1 = V (RRedirect (host ++ lit "/auth/login") None) /\
  see t ErrorPage "GET" "/connect/error?error=a&error_description=b+c" None = V (RPage (lit "error.j2") (Some (lit "b c"))) /\ see t ErrorPage "PUT" "/connect/error" None = V (RStatus 405).
Proof. exact pages_example. Qed.
