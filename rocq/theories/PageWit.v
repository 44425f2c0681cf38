(** The pages for concrete requests. *)
From Coq Require Import String Ascii List NArith ZArith Bool Arith.
From Verif Require Import Base BaseFacts SpecReaders Url UrlQuoteFacts SpecUrl Webtools Crypto Jwk Prog Http OAuth SpecOAuth SpecHistory SpecFlow Example OAuthRef OAuthWit FlowWit App SpecApp AppFacts AppWit SpecLogin SpecError ErrorWit SpecConsent ConsentFacts ConsentWit Page SpecPage PageFacts.
Import ListNotations.
Open Scope N_scope.

Fixpoint starts (p s : str) : bool := match p, s with [], _ => true | a :: p, b :: s => (a =? b) && starts p s | _, [] => false end.
Fixpoint contains (p s : str) : bool := starts p s || match s with [] => false | _ :: r => contains p r end.
Definition form0 : form_state := {| fs_token := lit "tok"; fs_email := []; fs_password := [] |}.
Lemma page_at g w f m doc : (exists t, aresult (ago (g, w) aworld0) = V (RPage t m) /\ document g w f (RPage t m) = Some doc) -> answers ref_env prov oidc g w f m doc.
Proof. intros (t & H & Hd). exists (atrace (ago (g, w) aworld0)), t. split; [rewrite <- H; exact (ago_exec (g, w) aworld0)|exact Hd]. Qed.

(** A description that is a script *)
Definition script : str := lit "<script>alert('x & y')</script>".
Definition script_items : params := [(lit "error", lit """"); (lit "error_description", script)].
Definition script_visit : App.web := visit "GET" (lit "/connect/error?" ++ query script_items) [] [] None no_form.
Lemma wit_script : answers ref_env prov oidc ErrorPage script_visit form0 (Some script) (error_page script_visit) /\
  param_of (wb_url script_visit) (chars "error_description") (Some script) /\
  contains (lit "<span>&lt;script&gt;alert(&#39;x &amp; y&#39;)&lt;/script&gt;</span>") (error_page script_visit) = true /\
  contains (lit "<span>&#34;</span>") (error_page script_visit) = true.
Proof.
  split; [apply page_at; exists (lit "error.j2"); split; [wit|reflexivity]|]. split; [|split; vm_compute; reflexivity].
  replace (Some script) with (lookup (chars "error_description") (rev script_items)) by (vm_compute; reflexivity).
  apply (po_query _ _ (host ++ lit "/connect/error") script_items (query script_items)).
  - reflexivity.
  - apply inc_nIn. wit.
  - apply inc_nIn. wit.
  - apply query_iff. vm_compute. reflexivity.
Qed.

(** An address that would end the attribute *)
Definition quoting_form : login_form := {| lf_email := lit """><script>"; lf_password := lit "wrong horse"; lf_valid := false |}.
Definition quoting_visit : App.web := visit "POST" (lit "/auth/login?" ++ query [(lit "next", lit "/a&b")]) [] [] None quoting_form.
Definition form1 : form_state := {| fs_token := lit "tok"; fs_email := [lit "Invalid email."]; fs_password := [] |}.
Lemma wit_quoting : answers ref_env prov oidc LoginPage quoting_visit form1 None (login_page quoting_visit None form1) /\
  contains (lit "<form action=""http://localhost:8000/auth/login?next=%2Fa%26b"" method=""post"" class=""mb-4"">") (login_page quoting_visit None form1) = true /\
  contains (lit "value=""&#34;&gt;&lt;script&gt;"">") (login_page quoting_visit None form1) = true /\
  contains (lit "wrong horse") (login_page quoting_visit None form1) = false.
Proof. split; [apply page_at; exists (lit "login.j2"); split; [wit|reflexivity]|]. do 2 (split; [vm_compute; reflexivity|]). vm_compute. reflexivity. Qed.

(** To the login, a wrong password, and back *)
Definition at_login (method : string) (f : login_form) : App.web :=
  {| wb_method := lit method; wb_base := host; wb_url := redirected (aresult AppWit.sent); wb_headers := []; wb_body := []; wb_cookie := None; wb_form := f |}.
Definition wrong_form : login_form := {| lf_email := lit "a@x.example"; lf_password := lit "wrong horse"; lf_valid := true |}.
Lemma wit_again : atrace AppWit.sent = [] /\
  answers ref_env prov oidc LoginPage (at_login "POST" wrong_form) form0 (Some (lit "Invalid Credentials.")) (login_page (at_login "POST" wrong_form) (Some (lit "Invalid Credentials.")) form0) /\
  submitted_to ref_env prov oidc (redirected (aresult AppWit.sent)) (wb_url followed) /\
  aresult AppWit.back = V (RRedirect (host ++ authz_path) (Some (lit "alice", lit "tok2"))).
Proof.
  assert (A1 : answers ref_env prov oidc LoginPage (at_login "GET" no_form) form0 None (login_page (at_login "GET" no_form) None form0)).
  { apply page_at. exists (lit "login.j2"). split; [wit|reflexivity]. }
  assert (A2 : answers ref_env prov oidc LoginPage (at_login "POST" wrong_form) form0 (Some (lit "Invalid Credentials.")) (login_page (at_login "POST" wrong_form) (Some (lit "Invalid Credentials.")) form0)).
  { apply page_at. exists (lit "login.j2"). split; [wit|reflexivity]. }
  split; [wit|]. split; [exact A2|]. split; [|wit].
  destruct (has_form _ _ _ _ _ _ _ A1) as (t1 & k1 & H1 & I1 & G1). destruct (has_form _ _ _ _ _ _ _ A2) as (t2 & k2 & H2 & I2 & G2).
  eapply su_again; [|exact A2|exact H2|exact I2|exact G2]. eapply su_form; [|exact A1|exact H1|exact I1|exact G1]. reflexivity.
Qed.

(** The answer to a request without a redirect URI, followed *)
Definition location_of (x : res response) : str := match x with V z => match lookup (lit "Location") (rs_headers z) with Some (PStr l) => l | _ => [] end | X _ => [] end.
Definition told : App.web := visit "GET" (location_of (result_of (run_authz (drop "redirect_uri" authz_items) (Some alice)))) [] [] None no_form.
Lemma wit_told : authz_ok (drop "redirect_uri" authz_items) (Some alice) /\ ~ supplied (asked_without "redirect_uri") "redirect_uri" /\
  is_url (cf_error_url (pv_config prov)) /\ ~ In 63 (cf_error_url (pv_config prov)) /\ ~ In 35 (cf_error_url (pv_config prov)) /\ is_origin (wb_base told) /\
  (exists m, answers ref_env prov oidc ErrorPage told form0 m (error_page told)) /\ contains (lit "<strong>Error code: </strong><span>invalid_request</span>") (error_page told) = true /\
  contains (lit "<strong>Description: </strong><span>None</span>") (error_page told) = false.
Proof.
  destruct without_example as (_ & _ & _ & H1 & H2 & _). split; [exact H1|]. split; [exact H2|]. split; [apply url_at; wit|]. split; [apply inc_nIn; wit|]. split; [apply inc_nIn; wit|].
  split; [exact host_origin|]. split; [eexists; apply page_at; exists (lit "error.j2"); split; [wit|reflexivity]|]. split; vm_compute; reflexivity.
Qed.
Definition told_items : params := [L "error" "invalid_request"; L "error_description" "Missing required parameter ""redirect_uri""."].
Lemma wit_redirect : exists z, result_of (run_authz (drop "redirect_uri" authz_items) (Some alice)) = V z /\ redirects z (cf_error_url (pv_config prov)) told_items /\
  (forall l, lookup (chars "Location") (rs_headers z) = Some (PStr l) -> wb_url told = wb_base told ++ l) /\
  only_value told_items "error_description" (Some (chars "Missing required parameter ""redirect_uri"".")) /\ only_value told_items "error" (Some (chars "invalid_request")).
Proof.
  assert (R : match result_of (run_authz (drop "redirect_uri" authz_items) (Some alice)) with
              | V z => rs_status z = 303 /\ lookup (lit "Location") (rs_headers z) = Some (PStr (lit "/error" ++ 63 :: query told_items))
              | X _ => False
              end) by (vm_compute; split; reflexivity).
  assert (T : wb_url told = host ++ lit "/error" ++ 63 :: query told_items) by (vm_compute; reflexivity).
  destruct (result_of _) as [z|]; [|destruct R]. destruct R as [R1 R2]. exists z. split; [reflexivity|]. split.
  { exists (query told_items). split; [|apply query_iff; vm_compute; reflexivity]. exists (lit "/error"). split; [exact R1|]. split; [apply location_iff; vm_compute; reflexivity|exact R2]. }
  split; [intros l Hl; change chars with lit in Hl; rewrite R2 in Hl; injection Hl as <-; exact T|].
  split; intros v; unfold told_items, L; cbn [In]; split.
  - intros [H|[H|[]]]; [apply (f_equal fst) in H; vm_compute in H; discriminate|apply (f_equal snd) in H; cbn [snd] in H; subst v; reflexivity].
  - intros H. right. left. assert (Hv : v = chars "Missing required parameter ""redirect_uri"".") by congruence. rewrite Hv. reflexivity.
  - intros [H|[H|[]]]; [apply (f_equal snd) in H; cbn [snd] in H; subst v; reflexivity|apply (f_equal fst) in H; vm_compute in H; discriminate].
  - intros H. left. assert (Hv : v = chars "invalid_request") by congruence. rewrite Hv. reflexivity.
Qed.
