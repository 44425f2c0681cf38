(** Witnesses for the refutations about the OAuth endpoints. *)
From Coq Require Import String Ascii List NArith ZArith Bool.
From Verif Require Import Base BaseFacts Utf8 Base64 SpecCodec SpecKey Json Url Webtools HeaderFacts UrlQuoteFacts Crypto RefCrypto Jwk Jws Jwt SpecJwt Prog ProgFacts Http OAuth SpecOAuth Example ExampleFacts OAuthRef OAuthFacts RequestFacts ResponseFacts IdTokenFacts.
Import ListNotations.
Open Scope N_scope.

Ltac wit := vm_compute; reflexivity.
(** Split off the claims about a run that are equalities, one at a time. *)
Ltac wits := repeat match goal with |- _ /\ _ => split; [wit|] | |- let _ := _ in _ => cbv zeta end; wit.

Lemma go_at {A} (p : prog A) w tr x : trace_of (go p w) = tr -> result_of (go p w) = x -> exec p tr x.
Proof. intros <- <-. apply go_exec. Qed.
Lemma scripted_at {A} H (p : prog A) tr x : scripted H p = (tr, x) -> exec p tr x.
Proof. intros E. pose proof (scripted_exec H p) as Hx. rewrite E in Hx. exact Hx. Qed.

Definition is_str (v : pyval) : bool := match v with PStr _ => true | _ => false end.
Lemma is_str_ex v : is_str v = true -> exists t, v = PStr t.
Proof. destruct v; try discriminate. eauto. Qed.

(** C43 *)
Definition two_methods : request := token_req (basic "web" "s3cret") [L "grant_type" "client_credentials"; L "client_id" "post"; L "client_secret" "hush"].
Lemma two_methods_accepted :
  basic_header (rq_headers two_methods) (lit "web") (lit "s3cret") /\
  form_has two_methods "client_id" (lit "post") /\ form_has two_methods "client_secret" (lit "hush") /\
  exec (authenticate two_methods []) [OFindClient (lit "web") (V (Some web))] (V web).
Proof.
  split.
  - exists (lit "Basic"), (lit "web:s3cret"). split; [apply basic_letters; reflexivity|]. split; [intros H; apply inc_In in H; discriminate|].
    split; [discriminate|]. split; [discriminate|]. split; [slit|]. split; [slit|]. split; [wit|apply carries_at; wit].
  - split; [wit|]. split; [wit|]. apply (go_at _ world0); wit.
Qed.

(** C46, C47 *)
Definition evil_items (rt : string) : params :=
  [L "response_type" rt; L "client_id" "web"; L "redirect_uri" "https://evil.example/x"; L "scope" "openid"; L "state" "s1"].
Definition evil_req (rt : string) (u : option user) : request := req "GET" (authorization_url (evil_items rt)) [] None u.
Definition sent_to (x : res response) (uri : str) : bool :=
  match x with
  | V r => (rs_status r =? 303) && match lookup (lit "Location") (rs_headers r) with
                                   | Some (PStr l) => prefixb (uri ++ [63]) l | _ => false end
  | X _ => false
  end.
Lemma req_made m url h b u : (match make_request (lit m) url h b u with Ok _ => true | Err _ => false end) = true -> made (req m url h b u).
Proof. unfold req. destruct (make_request (lit m) url h b u) as [r|] eqn:E; [|discriminate]. intros _. exists (lit m), url, h, b, u. auto. Qed.
Definition response_of (x : res response) : response := match x with V r => r | X _ => {| rs_status := 0; rs_headers := []; rs_body := [] |} end.
Definition evil1 := go (authorization_endpoint ref_env prov oidc (evil_req "code" None)) world0.
Definition evil2 := go (authorization_endpoint ref_env prov oidc (evil_req "token" (Some alice))) world0.
Lemma open_redirect : forall c, In c (st_clients store0) -> ~ In (lit "https://evil.example/x") (cl_redirects c).
Proof. intros c H Hin. assert (E : forallb (fun c => negb (ins (lit "https://evil.example/x") (cl_redirects c))) (st_clients store0) = true) by wit.
  rewrite forallb_forall in E. apply E in H. apply ins_In in Hin. rewrite Hin in H. discriminate. Qed.
Lemma open_redirect_1 : exists r x q, made r /\ rq_user r = None /\ exec (authorization_endpoint ref_env prov oidc r) [] (V x) /\
  data_has r "state" (lit "s1") /\ sends x (lit "https://evil.example/x") q /\ SpecUrl.query_text [L "error" "access_denied"] q.
Proof.
  exists (evil_req "code" None), (response_of (result_of evil1)), (lit "error=access_denied"). split; [unfold evil_req; apply req_made; wit|]. split; [wit|].
  split; [apply (go_at _ world0); wit|].
  split; [wit|]. split; [|apply query_iff; wit]. exists (lit "https://evil.example/x"). split; [wit|]. split; [apply location_iff; wit|wit].
Qed.
Lemma open_redirect_2 : exists r x q, made r /\ rq_user r = Some alice /\ exec (authorization_endpoint ref_env prov oidc r) [] (V x) /\
  sends x (lit "https://evil.example/x") q.
Proof.
  exists (evil_req "token" (Some alice)), (response_of (result_of evil2)), (lit "error=unsupported_response_type&error_description=Unsupported+response_type+%22token%22.&state=s1").
  split; [unfold evil_req; apply req_made; wit|]. split; [wit|].
  split; [apply (go_at _ world0); wit|].
  exists (lit "https://evil.example/x"). split; [wit|]. split; [apply location_iff; wit|wit].
Qed.
Definition no_scope_items : params := [L "response_type" "code"; L "client_id" "web"; (lit "redirect_uri", cb); L "state" "s1"].
Definition no_scope_req : request := req "GET" (authorization_url no_scope_items) [] None None.
Definition consent1 := go (get_consent_data prov no_scope_req) world0.
Definition consent_response (x : res consent) : response :=
  match x with V (ConsentRedirect r) => r | _ => {| rs_status := 0; rs_headers := []; rs_body := [] |} end.
Lemma consent_drops_state : exists r x q, made r /\ data_has r "state" (lit "s1") /\
  exec (get_consent_data prov r) [OFindClient (lit "web") (V (Some web))] (V (ConsentRedirect x)) /\ sends x cb q /\
  SpecUrl.query_text [L "error" "invalid_request"; L "error_description" "Missing required parameter ""scope""."] q.
Proof.
  exists no_scope_req, (consent_response (result_of consent1)), (lit "error=invalid_request&error_description=Missing+required+parameter+%22scope%22.").
  split; [unfold no_scope_req; apply req_made; wit|]. split; [wit|].
  split; [apply (go_at _ world0); wit|].
  split; [|apply query_iff; wit]. exists cb. split; [wit|]. split; [apply location_iff; wit|wit].
Qed.

Lemma no_raise_at tr : forallb (fun o => match raised o with None => true | _ => false end) tr = true -> no_raise tr.
Proof. intros H o Ho. rewrite forallb_forall in H. apply H in Ho. destruct (raised o); [discriminate|auto]. Qed.

(** C56 *)
Definition no_code_req : request := token_req (basic "web" "s3cret") [L "grant_type" "authorization_code"].
Definition tok (r : request) (w : world) := go (token_endpoint ref_env prov oidc r) w.
Definition accent_req : request := token_req (basic "web" "s3cret")
  [L "grant_type" "authorization_code"; (lit "code", the_code); (lit "redirect_uri", cb); (lit "code_verifier", [233])].
Definition odd_header_req : request := token_req [(lit "Authorization", PStr (lit "Basic "))] [L "grant_type" "client_credentials"].
Definition blank_items : params :=
  [L "response_type" "code"; L "client_id" "web"; (lit "redirect_uri", cb); L "scope" " "; L "code_challenge" challenge; L "code_challenge_method" "S256"; L "nonce" "n1"].
Definition blank1 := run_authz blank_items (Some alice).
Definition blank2 := tok (code_req the_code) (world_of blank1).
Definition raises (r : request) (e : exn) : Prop :=
  exists tr, exec (token_endpoint ref_env prov oidc r) tr (X (Py e)) /\ no_raise tr.
Ltac raise w := eexists; split; [apply (go_at _ w); [reflexivity|wit]|apply no_raise_at; wit].
Lemma wit_raise_code : raises no_code_req KeyError.
Proof. raise world0. Qed.
Lemma wit_raise_verifier : raises accent_req UnicodeEncodeError.
Proof. raise (world_of run1). Qed.
Lemma wit_raise_header : raises odd_header_req ValueError.
Proof. raise world0. Qed.
Lemma wit_raise_scope : raises (code_req the_code) KeyError /\
  names (trace_of blank1) = ["find_client"; "secret_token"; "save_authorization_code"]%string /\ status_of (result_of blank1) = 303 /\
  names (trace_of blank2) = ["find_client"; "get_authorization_code"; "utcnow"; "find_user"; "create_access_token"; "create_refresh_token"; "delete_authorization_code"]%string.
Proof. split; [raise (world_of blank1)|]. wits. Qed.
(** An ORM that returns aware datetimes *)
Definition go_aware {A} (p : prog A) (w : world) := run (ex_handler light true) p w.
Definition aware1 := go_aware (authorization_endpoint ref_env prov oidc authz_req) world0.
Definition aware2 := go_aware (token_endpoint ref_env prov oidc (code_req the_code)) (world_of aware1).
Definition aware3 := go_aware (token_endpoint ref_env prov oidc (refresh_req (lit "tok8"))) (world_of aware2).
Lemma go_aware_at {A} (p : prog A) w tr x : trace_of (go_aware p w) = tr -> result_of (go_aware p w) = x -> exec p tr x.
Proof. intros <- <-. unfold go_aware, trace_of, result_of. destruct (run _ p w) as [[tr r] w'] eqn:H. simpl. eapply run_exec; eauto. Qed.
Lemma wit_raise_aware : status_of (result_of aware2) = 200 /\ raises (refresh_req (lit "tok8")) TypeError.
Proof. split; [wit|]. eexists; split; [apply (go_aware_at _ (world_of aware2)); [reflexivity|wit]|apply no_raise_at; wit]. Qed.
Lemma wit_revoke_none : exists r tr, exec (revocation_endpoint r) tr (V None) /\ no_raise tr.
Proof. exists (revoke_req (basic "web" "s3cret") []). eexists; split; [apply (go_at _ world0); [reflexivity|wit]|apply no_raise_at; wit]. Qed.

(** C59, C60, C62 *)
Lemma wit_no_user : exists r tr x sc a, exec (token_endpoint ref_env prov oidc r) tr (V x) /\ rs_status x = 200 /\
  In (OFindUser (lit "alice") (V None)) tr /\ In (OCreateAT web OwnNone sc (V a)) tr.
Proof.
  exists (refresh_req (lit "RT")), (fst (scripted (answers web None (good_code []) (good_rt [lit "openid"])) (token_endpoint ref_env prov oidc (refresh_req (lit "RT"))))),
    (response_of (snd (scripted (answers web None (good_code []) (good_rt [lit "openid"])) (token_endpoint ref_env prov oidc (refresh_req (lit "RT")))))), [lit "openid"], (lit "AT").
  split; [apply scripted_at with (H := answers web None (good_code []) (good_rt [lit "openid"])); wit|]. split; [wit|].
  split; [apply nth_error_In with (n := 3%nat); wit|apply nth_error_In with (n := 4%nat); wit].
Qed.
Lemma wit_refresh_twice :
  status_of (result_of run2) = 200 /\ member "refresh_token" (body_of (result_of run2)) = PStr (lit "tok8") /\
  status_of (result_of run3) = 200 /\ member "refresh_token" (body_of (result_of run3)) = PStr (lit "tok8") /\
  status_of (result_of run4) = 200.
Proof. wits. Qed.
Lemma wit_unsupported_scope : exists r tr x c o sc a, exec (token_endpoint ref_env prov oidc r) tr (V x) /\ rs_status x = 200 /\
  In (OCreateAT c o sc (V a)) tr /\ In (lit "admin") sc /\ ~ In (lit "admin") (cf_scopes (pv_config prov)).
Proof.
  pose (H := answers post None (good_code []) (good_rt [])).
  exists (cc_req []), (fst (scripted H (token_endpoint ref_env prov oidc (cc_req [])))),
    (response_of (snd (scripted H (token_endpoint ref_env prov oidc (cc_req []))))), post, (OwnClient post), [lit "openid"; lit "admin"], (lit "AT").
  split; [apply scripted_at with (H := H); wit|]. split; [wit|].
  split; [apply nth_error_In with (n := 1%nat); wit|]. split; [right; left; reflexivity|]. intros Hi. apply ins_In in Hi. revert Hi. vm_compute. discriminate.
Qed.
Lemma wit_unsupported_refresh : exists r tr x c o sc a, exec (token_endpoint ref_env prov oidc r) tr (V x) /\ rs_status x = 200 /\
  data_has r "grant_type" (lit "refresh_token") /\
  In (OCreateAT c o sc (V a)) tr /\ In (lit "admin") sc /\ ~ In (lit "admin") (cf_scopes (pv_config prov)).
Proof.
  pose (w := ex_client (lit "web") (Some (lit "s3cret")) (lit "client_secret_basic") [cb] all_grants [lit "code"] [lit "openid"; lit "admin"]).
  pose (H := answers w (Some alice) (good_code []) (good_rt [lit "admin"])).
  exists (refresh_req (lit "RT")), (fst (scripted H (token_endpoint ref_env prov oidc (refresh_req (lit "RT"))))),
    (response_of (snd (scripted H (token_endpoint ref_env prov oidc (refresh_req (lit "RT")))))), w, (OwnUser alice), [lit "admin"], (lit "AT").
  split; [apply scripted_at with (H := H); wit|]. split; [wit|]. split; [wit|].
  split; [apply nth_error_In with (n := 4%nat); wit|]. split; [left; reflexivity|]. intros Hi. apply ins_In in Hi. revert Hi. vm_compute. discriminate.
Qed.

(** C65 *)
Definition other_config : config :=
  {| cf_issuer := lit "https://other.example"; cf_scopes := [lit "openid"]; cf_token_lifespan := 60; cf_id_token_lifespan := 60; cf_error_url := lit "/e" |}.
Definition other : provider := {| pv_adapter := 2; pv_config := other_config; pv_grants := [GCode] |}.
Definition other_run := scripted (answers web (Some alice) (good_code [lit "openid"]) (good_rt [])) (token_endpoint ref_env other oidc (code_req the_code)).
Definition twice_run := scripted (answers web (Some alice) (good_code [lit "openid"]) (good_rt []))
  (token_endpoint ref_env prov (add_hook prov (GrantClass GCode) oidc) (code_req the_code)).
(** A hook registered for the refresh token grant only *)
Definition refresh_run := scripted (answers web (Some alice) (good_code [lit "openid"]) (good_rt []))
  (token_endpoint ref_env prov (add_hook prov (GrantClass GRefresh) no_hooks) (code_req the_code)).
Definition id_issuer (x : res response) : result pyval :=
  match member "id_token" (body_of x) with
  | PStr t => rmap (fun tk => dget (lit "iss") (tclaims tk)) (jwt_decode_str light 1700000000 1700000000 t (Some SECRET_KEY) (PStr (lit "HS256")) true PNone)
  | _ => Err RuntimeError
  end.
Lemma wit_shared_hook : oidc = add_hook prov (GrantClass GCode) no_hooks /\ pv_adapter other <> pv_adapter prov /\
  exec (token_endpoint ref_env other oidc (code_req the_code)) (fst other_run) (snd other_run) /\
  In (OGetUserinfo (pv_adapter prov) alice [lit "openid"] (V [(lit "sub", PStr (lit "alice"))])) (fst other_run) /\
  id_issuer (snd other_run) = Ok (PStr (cf_issuer (pv_config prov))).
Proof.
  split; [reflexivity|]. split; [discriminate|]. split; [unfold other_run; apply scripted_exec|]. split; [apply nth_error_In with (n := 7%nat); wit|wit].
Qed.
Lemma wit_hook_other_grant :
  exec (token_endpoint ref_env prov (add_hook prov (GrantClass GRefresh) no_hooks) (code_req the_code)) (fst refresh_run) (snd refresh_run) /\
  id_issuer (snd refresh_run) = Ok (PStr (cf_issuer (pv_config prov))).
Proof. split; [unfold refresh_run; apply scripted_exec|wit]. Qed.
Lemma wit_hook_twice :
  exec (token_endpoint ref_env prov (add_hook prov (GrantClass GCode) oidc) (code_req the_code)) (fst twice_run) (snd twice_run) /\
  length (filter (fun o => match o with OGetUserinfo _ _ _ _ => true | _ => false end) (fst twice_run)) = 2%nat.
Proof. split; [unfold twice_run; apply scripted_exec|wit]. Qed.

(** C66: the scope openidx *)
Definition sub_run := scripted (answers web (Some alice) (good_code [lit "openidx"]) (good_rt [])) (token_endpoint ref_env prov oidc (code_req the_code)).
Lemma wit_substring : exists ac, ~ In (lit "openid") (ac_scopes ac) /\
  In (OGetCode the_code (V (Some ac))) (fst sub_run) /\
  exec (token_endpoint ref_env prov oidc (code_req the_code)) (fst sub_run) (snd sub_run) /\
  status_of (snd sub_run) = 200 /\ exists t, member "id_token" (body_of (snd sub_run)) = PStr t.
Proof.
  exists (good_code [lit "openidx"]). split; [intros H; apply ins_In in H; revert H; vm_compute; discriminate|].
  split; [apply nth_error_In with (n := 1%nat); wit|]. split; [unfold sub_run; apply scripted_exec|]. split; [wit|].
  apply is_str_ex. wit.
Qed.
(** C68: the example adapter never puts a nonce into the user information. *)
Lemma full_lacks k d : ~ In k (keys d) -> lookup k (full d) = None.
Proof. intros H. apply lookup_None. intros Hin. apply H. unfold keys, full in *. apply in_map_iff in Hin as (kv & <- & Hin). apply filter_In in Hin as [Hin _]. apply in_map. auto. Qed.
Lemma ex_userinfo_nonce u sc : lookup (lit "nonce") (ex_userinfo u sc) = None.
Proof.
  unfold ex_userinfo, FullDict, pick. cbn [map dupdate fold_left]. apply full_lacks. apply lookup_None.
  destruct (ins (lit "phone") sc), (ins (lit "address") sc), (ins (lit "email") sc), (ins (lit "profile") sc); rewrite ?lookup_dupdate; reflexivity.
Qed.
Definition claims_of (x : res response) : result pdict :=
  match member "id_token" (body_of x) with
  | PStr t => rmap tclaims (jwt_decode_str light 1700000000 1700000000 t (Some SECRET_KEY) (PStr (lit "HS256")) true PNone)
  | _ => Err RuntimeError
  end.
