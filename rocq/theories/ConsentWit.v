(** Runs for the examples of C156-C161. *)
From Coq Require Import String Ascii List NArith ZArith Bool Arith Lia.
From Verif Require Import Base BaseFacts Utf8 Utf8Facts SpecCodec Url Webtools Crypto Jwk Prog Http OAuth SpecOAuth SpecReaders SpecHistory SpecFlow Example OAuthRef OAuthWit FlowWit App SpecApp AppFacts AppWit LifeWit SpecLogin LoginFacts LoginWit SpecError ErrorWit SpecConsent.
Import ListNotations.
Open Scope string_scope.
Open Scope list_scope.
Open Scope N_scope.

(** Alice is logged in and follows a link. *)
Definition home_world : aworld := AppWit.after [login_again] aworld0.
Definition link (items : params) (cookie : option (str * str)) : App.web := visit "GET" (lit "/connect/authorize?" ++ query items) [] [] cookie no_form.
Definition read_of (w : App.web) : request :=
  match make_request (wb_method w) (wb_url w) (wb_headers w) (Some (wb_body w)) (Some alice) with Ok r => r | Err _ => authz_req end.
Definition follow (items : params) (cookie : option (str * str)) := ago (AuthorizePage, link items cookie) home_world.
Lemma passed_at w : match make_request (wb_method w) (wb_url w) (wb_headers w) (Some (wb_body w)) (Some alice) with Ok _ => true | Err _ => false end = true -> passed_on w alice (read_of w).
Proof. unfold passed_on, read_of. destruct (make_request _ _ _ _ _); [reflexivity|discriminate]. Qed.
Definition linked : request := read_of (link plain_items cookie1).
Lemma linked_request : code_request prov linked alice (lit "web") cb [lit "openid"; lit "email"] (lit verifier) (lit "plain").
Proof.
  split; [wit|]. split; [wit|]. split; [wit|]. split; [wit|]. split; [apply asks_at; wit|]. split; [wit|]. split; [vm_compute; lia|]. split; [wit|].
  split; [left; reflexivity|]. split; [left; reflexivity|]. intros w Hw. apply ins_In. destruct Hw as [<-|[<-|[]]]; wit.
Qed.
Lemma follow_session : session_of (link plain_items cookie1) alice (atrace (follow plain_items cookie1)).
Proof. exists (lit "alice"), (lit "tok2"). split; [reflexivity|]. apply nth_error_In with (n := 0%nat). wit. Qed.
Lemma scalar_at d : forallb (fun kv => scalar_b (snd kv)) d = true -> scalar_data d.
Proof. intros H. rewrite forallb_forall in H. apply Forall_forall. intros kv Hk. apply scalar_b_ok, H, Hk. Qed.
Lemma secrets_at tr : forallb (fun o => match o with OSecretToken _ (V t) => match t with [] => false | _ => scalar_b t end | _ => true end) tr = true -> secrets_ok tr.
Proof. intros H n t Ht. rewrite forallb_forall in H. apply H in Ht. destruct t as [|c t]; [discriminate|]. split; [discriminate|]. apply scalar_b_ok. exact Ht. Qed.
Lemma consent_example :
  aexec (application ref_env prov oidc AuthorizePage (link plain_items cookie1)) (atrace (follow plain_items cookie1)) (aresult (follow plain_items cookie1)) /\
  ano_raise (atrace (follow plain_items cookie1)) /\ session_of (link plain_items cookie1) alice (atrace (follow plain_items cookie1)) /\ passed_on (link plain_items cookie1) alice linked /\
  scalar_data (rq_data linked) /\ secrets_ok (lib_calls (atrace (follow plain_items cookie1))) /\
  code_request prov linked alice (lit "web") cb [lit "openid"; lit "email"] (lit verifier) (lit "plain") /\ finds_client (lit "web") OAuthRef.web (lib_calls (atrace (follow plain_items cookie1))) /\
  In cb (cl_redirects OAuthRef.web) /\ In (lit "code") (cl_responses OAuthRef.web) /\ incl [lit "openid"; lit "email"] (cl_allowed OAuthRef.web (Some [lit "openid"; lit "email"])) /\
  option_map (fun z => lookup (lit "Location") (rs_headers z)) (response_in (aresult (follow plain_items cookie1))) = Some (Some (PStr (lit "https://c.example/cb?code=tok6&state=x+y"))).
Proof.
  split; [exact (ago_exec (AuthorizePage, link plain_items cookie1) home_world)|].
  split; [apply ano_raise_at; wit|]. split; [exact follow_session|]. split; [apply passed_at; wit|]. split; [apply scalar_at; wit|]. split; [apply secrets_at; wit|].
  split; [exact linked_request|]. split; [intros y H; scan H|]. split; [apply ins_In; wit|]. split; [apply ins_In; wit|]. split; [intros w [<-|[<-|[]]]; apply ins_In; wit|wit].
Qed.

(** The client wants a fresh login, or none at all. *)
Definition asking (name value : string) : params := plain_items ++ [L name value].
Lemma agree_at d d' : d' = d ++ skipn (length d) d' -> (forall kv, In kv (skipn (length d) d') -> In (fst kv) (map chars authentication_params)) -> agree_except authentication_params d d'.
Proof.
  intros E H k Hk. rewrite E. generalize dependent (skipn (length d) d'). intros e _ H. induction d as [|[k' v] d IH]; cbn [List.app lookup].
  - induction e as [|[k' v] e IHe]; [reflexivity|]. cbn [List.app lookup]. destruct (eqs _ _) eqn:Ek; [|apply IHe; intros kv Hkv; apply H; right; exact Hkv].
    exfalso. apply eqs_true in Ek. subst. apply Hk, (H _ (or_introl eq_refl)).
  - destruct (eqs _ _); [reflexivity|exact IH].
Qed.
Definition fresh_login : App.web := link (asking "prompt" "login") cookie1.
Definition no_age : App.web := link (asking "max_age" "0") cookie1.
Lemma prompt_example :
  passed_on (link plain_items cookie1) alice linked /\ passed_on fresh_login alice (read_of fresh_login) /\ passed_on no_age alice (read_of no_age) /\
  agree_except authentication_params (rq_data linked) (rq_data (read_of fresh_login)) /\ agree_except authentication_params (rq_data linked) (rq_data (read_of no_age)) /\
  data_has (read_of fresh_login) "prompt" (lit "login") /\ data_has (read_of no_age) "max_age" (lit "0") /\
  session_of (link plain_items cookie1) alice (atrace (follow plain_items cookie1)) /\ rq_data linked <> [] /\ rq_data (read_of fresh_login) <> [] /\
  aresult (follow (asking "prompt" "login") cookie1) = aresult (follow plain_items cookie1).
Proof.
  split; [apply passed_at; wit|]. split; [apply passed_at; wit|]. split; [apply passed_at; wit|].
  split; [apply agree_at; [wit|]; intros kv Hkv; vm_compute in Hkv; destruct Hkv as [<-|[]]; apply ins_In; wit|].
  split; [apply agree_at; [wit|]; intros kv Hkv; vm_compute in Hkv; destruct Hkv as [<-|[]]; apply ins_In; wit|].
  split; [wit|]. split; [wit|]. split; [exact follow_session|]. split; [vm_compute; discriminate|]. split; [vm_compute; discriminate|wit].
Qed.
Definition nobody : App.web := link (asking "prompt" "none") None.
Lemma none_example : let v := follow (asking "prompt" "none") None in
  aexec (application ref_env prov oidc AuthorizePage nobody) (atrace v) (aresult v) /\ ano_raise (atrace v) /\ is_origin (wb_base nobody) /\ scalar_str (wb_url nobody) /\ no_session (atrace v) /\
  data_has (read_of nobody) "prompt" (lit "none") /\ match aresult v with V (RRedirect l None) => firstn 38 l = host ++ lit "/auth/login?next=" | _ => False end.
Proof.
  intros v. split; [exact (ago_exec (AuthorizePage, nobody) home_world)|]. split; [apply ano_raise_at; wit|]. split; [exact host_origin|]. split; [apply scalar_b_ok; wit|].
  assert (E : atrace v = []) by wit. split; [rewrite E; intros ? ? ? []|]. split; wit.
Qed.

(** A hundred years later *)
Definition far_world : aworld := {| aw_tables := aw_tables home_world; aw_count := 50; aw_now := 4855760000000000 |}.
Definition far := ago (AuthorizePage, link plain_items cookie1) far_world.
Lemma sessions_example : app_steps light false tables0 (atrace (ago login_again aworld0) ++ atrace far) (aw_tables (aworld_of far)) /\ known tables0 (lit "alice") /\
  exists l1 l2 l3, atrace (ago login_again aworld0) ++ atrace far = l1 ++ ONewSession (lit "tok2") (lit "alice") (V tt) :: l2 ++ OGetSession (lit "tok2") (lit "alice") (V (Some (Some alice))) :: l3 /\
    ~ In (ODropSessions (lit "alice") (V tt)) l2.
Proof.
  split; [apply app_steps_app; exists (aw_tables home_world); split; [exact (arun_steps light false (application ref_env prov oidc (fst login_again) (snd login_again)) aworld0)|]|].
  { exact (arun_steps light false (application ref_env prov oidc AuthorizePage (link plain_items cookie1)) far_world). }
  split; [exists alice; split; [left; reflexivity|reflexivity]|]. do 3 eexists. split; [apply (two_entries _ 3 0); wit|]. intros [].
Qed.

(** Guesses *)
Definition guess_visits : list (App.page * App.web) :=
  map (fun f => (LoginPage, visit "POST" (lit "/auth/login") [] [] None f)) [form_of "a@x.example" "correct mule"; form_of "a@x.example" "correct pony"; form_of "a@x.example" "1234567"; form_of "b@x.example" "correct horse"].
Lemma guesses_example : app_running ref_env prov oidc guess_visits (log_of 0 guess_visits aworld0) /\
  app_steps light false tables0 (map snd (log_of 0 guess_visits aworld0)) (aw_tables (AppWit.after guess_visits aworld0)) /\ guesses tables0 guess_visits /\
  length (log_of 0 guess_visits aworld0) = 3%nat /\
  good_form right_form /\ stranger tables0 (login_at evil) /\ (exists a, identifies tables0 (login_at evil) a) /\
  aresult (ago (LoginPage, login_at evil) (AppWit.after guess_visits aworld0)) = V (RRedirect evil (Some (lit "alice", lit "tok5"))).
Proof.
  split; [apply history_running|]. split; [exact (log_steps guess_visits 0 aworld0)|]. split.
  { intros q Hq. assert (Hb : forallb (fun q => match fst q with LoginPage => negb (eqs (lf_email (wb_form (snd q))) (lit "a@x.example") && eqs (lf_password (wb_form (snd q))) (lit "correct horse")) | _ => false end) guess_visits = true) by wit.
    rewrite forallb_forall in Hb. apply Hb in Hq. destruct (fst q) eqn:Eq; try discriminate. split; [reflexivity|]. intros uid (_ & _ & a & [<-|[]] & _ & He & Hp). cbn [a_email a_password] in He, Hp.
    rewrite <- He, <- Hp, !eqs_refl in Hq. discriminate. }
  destruct login_example as (A1 & A2 & A3 & _). split; [wit|]. split; [exact A1|]. split; [exact A2|]. split; [exact A3|wit].
Qed.

(** Requests without a scope, or without an address to lead back to *)
Lemma without_at r k : match lookup (lit k) (rq_data r) with Some (_ :: _) => false | _ => true end = true -> ~ supplied r k.
Proof. intros H (v & Hv & Hn). unfold data_has in Hv. change (chars k) with (lit k) in Hv. rewrite Hv in H. destruct v; [congruence|discriminate]. Qed.
Definition asked_without (k : string) : request := req "GET" (authorization_url (drop k authz_items)) [] None (Some alice).
Lemma without_example : authz_ok (drop "scope" authz_items) (Some alice) /\ ~ supplied (asked_without "scope") "scope" /\
  sent (result_of (run_authz (drop "scope" authz_items) (Some alice))) = back cb "invalid_request" /\
  authz_ok (drop "redirect_uri" authz_items) (Some alice) /\ ~ supplied (asked_without "redirect_uri") "redirect_uri" /\ cl_redirects OAuthRef.web = [cb] /\
  sent (result_of (run_authz (drop "redirect_uri" authz_items) (Some alice))) = page "invalid_request".
Proof.
  assert (Hr : Forall (fun x => authz_ok (fst x) (snd x)) [(drop "scope" authz_items, Some alice); (drop "redirect_uri" authz_items, Some alice)]) by (apply authz_rows; wit).
  split; [exact (Forall_inv Hr)|]. split; [apply without_at; wit|]. split; [wit|]. split; [exact (Forall_inv (Forall_inv_tail Hr))|]. split; [apply without_at; wit|]. split; wit.
Qed.
