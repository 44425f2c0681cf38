(** The pages of the example application as HTML documents: C171-C173. *)
From Coq Require Import String Ascii List NArith ZArith Bool Arith.
From Verif Require Import Base BaseFacts SpecReaders Url SpecUrl Webtools Crypto Jwk Prog Http OAuth SpecOAuth SpecHistory SpecFlow Example OAuthRef OAuthWit FlowWit App SpecApp AppFacts AppWit SpecLogin SpecError ErrorWit SpecConsent ConsentFacts ConsentWit Page SpecPage PageFacts PageWit.
Import ListNotations.
Open Scope string_scope.
Open Scope list_scope.
Open Scope N_scope.

(** A document has at most one reading, and so has the value of an attribute. *)
Theorem C171_one_reading : forall s t t', html s t -> html s t' -> t = t'.
Proof. exact (fun s t t' H H' => html_one s t H t' H'). Qed.
Print Assumptions C171_one_reading.
Theorem C171_one_value : forall v a b, text_of v a -> text_of v b -> a = b.
Proof. exact (fun v a b H H' => text_one v a H b H'). Qed.
Print Assumptions C171_one_value.

(** C171.  Whatever the address of the error page names as description and error stands on it as text between the same tags. *)
Theorem C171_error_text : exists pre mid post, error_frame pre mid post /\ forall E p hs w f m doc, answers E p hs ErrorPage w f m doc ->
  exists d e, (forall r, param_of (wb_url w) (chars "error_description") r -> r = d) /\ (forall r, param_of (wb_url w) (chars "error") r -> r = e) /\
    forall t, html doc t <-> t = pre ++ letters (SpecPage.shown d) ++ mid ++ letters (SpecPage.shown e) ++ post.
Proof. exact c171. Qed.
Print Assumptions C171_error_text.
Example C171_example : answers ref_env prov oidc ErrorPage script_visit form0 (Some script) (error_page script_visit) /\
  param_of (wb_url script_visit) (chars "error_description") (Some script) /\
  contains (lit "<span>&lt;script&gt;alert(&#39;x &amp; y&#39;)&lt;/script&gt;</span>") (error_page script_visit) = true /\
  contains (lit "<span>&#34;</span>") (error_page script_visit) = true.
Proof. exact wit_script. Qed.

(** C172.  The login page is fixed but for the style sheet's address, the address of the form, which is that of the page, the CSRF
    token, the submitted address, and messages as text: the password is not shown again. *)
Theorem C172_login_form : exists t0 t1 t2 t3 t4 t5 t6 t7 a1 a2 e1 e2 p1 p2,
  fixed_part (t0 ++ t1 ++ t2 ++ t3 ++ t4 ++ t5 ++ t6 ++ t7 ++ a1 ++ a2 ++ e1 ++ e2 ++ p1 ++ p2) /\
  forall E p hs w f m doc, answers E p hs LoginPage w f m doc ->
  exists style form csrf email, is_tag link_tag (wb_base w ++ chars "/static/css/forms.css") style /\ is_tag form_tag (wb_url w) form /\ is_tag csrf_tag (fs_token f) csrf /\
    (wb_method w = chars "POST" -> is_tag email_tag (lf_email (wb_form w)) email) /\ (wb_method w <> chars "POST" -> is_tag email_tag [] email) /\
    forall t, html doc t <-> t = t0 ++ style :: t1 ++ form :: t2 ++ message_in a1 a2 m ++ t3 ++ csrf :: t4 ++ email :: t5 ++ messages_in e1 e2 (fs_email f) ++ t6 ++ messages_in p1 p2 (fs_password f) ++ t7.
Proof. exact c172. Qed.
Print Assumptions C172_login_form.
Example C172_example : answers ref_env prov oidc LoginPage quoting_visit form1 None (login_page quoting_visit None form1) /\
  contains (lit "<form action=""http://localhost:8000/auth/login?next=%2Fa%26b"" method=""post"" class=""mb-4"">") (login_page quoting_visit None form1) = true /\
  contains (lit "value=""&#34;&gt;&lt;script&gt;"">") (login_page quoting_visit None form1) = true /\
  contains (lit "wrong horse") (login_page quoting_visit None form1) = false.
Proof. exact wit_quoting. Qed.

(** ... so that a user without a session who follows an authorization request to the login and submits its form until they are
    logged in gets back to the request. *)
Theorem C172_form_and_back : forall E p hs w tr x, aexec (application E p hs AuthorizePage w) tr x -> is_get w = true -> is_origin (wb_base w) -> is_url (wb_url w) -> wb_url w <> [] ->
  (tr = [] \/ exists sid uid, tr = [OGetSession sid uid (V None)]) ->
  exists L, x = V (RRedirect L None) /\ forall w' tr' l ck, submitted_to E p hs L (wb_url w') -> aexec (application E p hs LoginPage w') tr' (V (RRedirect l (Some ck))) -> l = wb_url w.
Proof. exact c172_back. Qed.
Print Assumptions C172_form_and_back.
Example C172_back_example : atrace AppWit.sent = [] /\
  answers ref_env prov oidc LoginPage (at_login "POST" wrong_form) form0 (Some (lit "Invalid Credentials.")) (login_page (at_login "POST" wrong_form) (Some (lit "Invalid Credentials.")) form0) /\
  submitted_to ref_env prov oidc (redirected (aresult AppWit.sent)) (wb_url followed) /\
  aresult AppWit.back = V (RRedirect (host ++ authz_path) (Some (lit "alice", lit "tok2"))).
Proof. exact wit_again. Qed.

(** C173.  A user agent that follows a redirection to the error page shows the error and the description of the redirection. *)
Theorem C173_error_told : forall E p hs z uri ps w f m doc d e, redirects z uri ps -> is_url uri -> ~ In 63 uri -> ~ In 35 uri -> is_origin (wb_base w) ->
  (forall l, lookup (chars "Location") (rs_headers z) = Some (PStr l) -> wb_url w = wb_base w ++ l) ->
  only_value ps "error_description" d -> only_value ps "error" e -> answers E p hs ErrorPage w f m doc -> error_shows doc (SpecPage.shown d) (SpecPage.shown e).
Proof. exact c173. Qed.
Print Assumptions C173_error_told.
Example C173_redirect_example : exists z, result_of (run_authz (drop "redirect_uri" authz_items) (Some alice)) = V z /\ redirects z (cf_error_url (pv_config prov)) told_items /\
  (forall l, lookup (chars "Location") (rs_headers z) = Some (PStr l) -> wb_url told = wb_base told ++ l) /\
  only_value told_items "error_description" (Some (chars "Missing required parameter ""redirect_uri"".")) /\ only_value told_items "error" (Some (chars "invalid_request")).
Proof. exact wit_redirect. Qed.
(** ... for example after an authorization request without a redirect URI (C161) *)
Theorem C173_missing_redirect_told : forall E p hs r tr z w f m doc, exec (authorization_endpoint E p hs r) tr (V z) -> made r -> no_oauth_raise tr -> SpecOAuth.tokens_ok tr -> ~ supplied r "redirect_uri" ->
  is_url (cf_error_url (pv_config p)) -> ~ In 63 (cf_error_url (pv_config p)) -> ~ In 35 (cf_error_url (pv_config p)) -> is_origin (wb_base w) ->
  (forall l, lookup (chars "Location") (rs_headers z) = Some (PStr l) -> wb_url w = wb_base w ++ l) -> answers E p hs ErrorPage w f m doc ->
  exists d, error_shows doc d (chars "invalid_request").
Proof. exact c173_missing. Qed.
Print Assumptions C173_missing_redirect_told.
Example C173_example : authz_ok (drop "redirect_uri" authz_items) (Some alice) /\ ~ supplied (asked_without "redirect_uri") "redirect_uri" /\
  is_url (cf_error_url (pv_config prov)) /\ ~ In 63 (cf_error_url (pv_config prov)) /\ ~ In 35 (cf_error_url (pv_config prov)) /\ is_origin (wb_base told) /\
  (exists m, answers ref_env prov oidc ErrorPage told form0 m (error_page told)) /\ contains (lit "<strong>Error code: </strong><span>invalid_request</span>") (error_page told) = true /\
  contains (lit "<strong>Description: </strong><span>None</span>") (error_page told) = false.
Proof. exact wit_told. Qed.
