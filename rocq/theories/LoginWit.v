(** Runs for the examples of C143 and C144. *)
From Coq Require Import String Ascii List NArith ZArith Bool Arith Lia.
From Verif Require Import Base BaseFacts SpecCodec SpecUrl Url Webtools Crypto Jwk Prog Http OAuth SpecReaders SpecHistory Example OAuthRef OAuthWit FlowWit App SpecApp AppFacts AppWit LifeWit UrlQuoteFacts UrlWriteFacts SpecLogin LoginFacts.
Import ListNotations.
Open Scope string_scope.
Open Scope list_scope.
Open Scope N_scope.

Definition form_of (email password : string) : login_form := {| lf_email := lit email; lf_password := lit password; lf_valid := true |}.
Definition try_login (f : login_form) := ago (LoginPage, visit "POST" (lit "/auth/login") [] [] None f) aworld0.
(** Two users gave the same address. *)
Definition shared : aworld := {| aw_tables := {| tb_store := store0; tb_sessions := [];
  tb_accounts := [{| a_id := lit "alice"; a_email := lit "a@x.example"; a_password := lit "correct horse" |}; {| a_id := lit "bob"; a_email := lit "a@x.example"; a_password := lit "correct mule" |}] |}; aw_count := 0; aw_now := 1700000000000000 |}.
Definition second_visit : App.web := visit "POST" (lit "/auth/login") [] [] None (form_of "a@x.example" "correct mule").
(** The users are deleted, their sessions are not. *)
Definition forgotten (t : tables) : tables :=
  {| tb_store := {| st_clients := st_clients (tb_store t); st_users := []; st_codes := st_codes (tb_store t); st_rts := st_rts (tb_store t) |};
     tb_sessions := tb_sessions t; tb_accounts := tb_accounts t |}.
Lemma right_good : good_form right_form.
Proof. apply good_iff. wit. Qed.
Lemma bad_form f : form_ok f = false -> ~ good_form f.
Proof. intros H G. apply good_iff in G. congruence. Qed.
Lemma next_evil : param_of (wb_url (login_at evil)) (chars "next") (Some evil).
Proof.
  assert (Hq : SpecUrl.query_text [(lit "next", evil)] (query [(lit "next", evil)])) by (apply query_iff; wit).
  apply (po_query (wb_url (login_at evil)) (chars "next") (host ++ lit "/auth/login") [(lit "next", evil)] (query [(lit "next", evil)])); [wit|apply inc_nIn; wit|apply inc_nIn; wit|exact Hq].
Qed.
Lemma wit_second_account : exists t w a, In a (tb_accounts t) /\ a_email a = lf_email (wb_form w) /\ a_password a = lf_password (wb_form w) /\ good_form (wb_form w) /\
  stranger t w /\ wb_method w = chars "POST" /\ exists tr t', aexec (application ref_env prov oidc LoginPage w) tr (V (RPage (chars "login.j2") (Some (chars "Invalid Credentials.")))) /\ app_steps light false t tr t' /\ ano_raise tr.
Proof.
  exists (aw_tables shared), second_visit, {| a_id := lit "bob"; a_email := lit "a@x.example"; a_password := lit "correct mule" |}.
  split; [right; left; reflexivity|]. split; [reflexivity|]. split; [reflexivity|]. split; [apply good_iff; wit|]. split; [intros uid (sid & Hc & _); discriminate|]. split; [reflexivity|].
  set (r := ago (LoginPage, second_visit) shared). exists (atrace r), (aw_tables (snd r)).
  assert (E : aresult r = V (RPage (chars "login.j2") (Some (chars "Invalid Credentials.")))) by wit. rewrite <- E.
  split; [exact (ago_exec (LoginPage, second_visit) shared)|]. split; [apply arun_steps|apply ano_raise_at; wit].
Qed.
Lemma login_example : good_form right_form /\ stranger tables0 (login_at evil) /\ (exists a, identifies tables0 (login_at evil) a) /\ ano_raise (atrace lured) /\
  param_of (wb_url (login_at evil)) (chars "next") (Some evil) /\
  ~ good_form (form_of "a@x.example" "1234567") /\ ~ good_form (form_of "a@x.example" "        ") /\ ~ good_form (form_of " " "correct horse") /\
  aresult lured = V (RRedirect evil (Some (lit "alice", lit "tok2"))) /\
  aresult (try_login (form_of "a@x.example" "correct mule")) = V (RPage (lit "login.j2") (Some (lit "Invalid Credentials."))) /\
  aresult (try_login (form_of "b@x.example" "correct horse")) = V (RPage (lit "login.j2") (Some (lit "Invalid Credentials."))) /\
  aresult (try_login (form_of "a@x.example" "1234567")) = V (RPage (lit "login.j2") None) /\
  aresult (try_login right_form) = V (RRedirect (host ++ lit "/") (Some (lit "alice", lit "tok2"))).
Proof.
  split; [exact right_good|]. split; [intros uid (sid & Hc & _); discriminate|]. split.
  { eexists. split; [exists [], []; split; [reflexivity|]; split; [reflexivity|intros ? []]|reflexivity]. }
  split; [apply ano_raise_at; wit|]. split; [exact next_evil|]. split; [apply bad_form; wit|]. split; [apply bad_form; wit|]. split; [apply bad_form; wit|].
  split; [wit|]. split; [wit|]. split; [wit|]. split; wit.
Qed.
Lemma pages_example : let t := aw_tables (after [login_again] aworld0) in
  let see t g m path ck := aresult (ago (g, visit m (lit path) [] [] ck no_form) {| aw_tables := t; aw_count := 9; aw_now := 1700000000000000 |}) in
  logged_in t (logout_visit cookie1) /\ stranger tables0 (logout_visit cookie1) /\ orphan (forgotten t) (logout_visit cookie1) /\
  see (forgotten t) LogoutPage "GET" "/auth/logout" cookie1 = V (RStatus 400) /\ see t TokenPage "GET" "/connect/token" None = V (RStatus 405) /\ see t Home "POST" "/" None = V (RStatus 405) /\
  see t Home "HEAD" "/" cookie1 = V (RPage (lit "index.j2") None) /\ see t LoginPage "GET" "/auth/login" cookie1 = V (RRedirect (host ++ lit "/") None) /\
  see t LoginPage "GET" "/auth/login" None = V (RPage (lit "login.j2") None) /\ see t LogoutPage "POST" "/auth/logout" cookie1 = V (RRedirect (host ++ lit "/auth/logout") None) /\
  see t LogoutPage "GET" "/auth/logout" cookie1 = V (RRedirect (host ++ lit "/auth/login") None) /\
  see t ErrorPage "GET" "/connect/error?error=a&error_description=b+c" None = V (RPage (lit "error.j2") (Some (lit "b c"))) /\ see t ErrorPage "PUT" "/connect/error" None = V (RStatus 405).
Proof.
  intros t see. assert (Hs : has_session t (logout_visit cookie1) (lit "alice")) by (exists (lit "tok2"); split; [reflexivity|left; wit]).
  split; [exists (lit "alice"); split; [exact Hs|exists alice; split; [left; wit|reflexivity]]|]. split; [intros uid (sid & _ & [])|].
  split; [exists (lit "alice"); split; [destruct Hs as (sid & H1 & H2); exists sid; split; [exact H1|exact H2]|intros (u & [] & _)]|].
  do 9 (split; [wit|]). wit.
Qed.
