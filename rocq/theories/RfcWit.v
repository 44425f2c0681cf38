(** Reference runs for C84-C93. *)
From Coq Require Import String Ascii List NArith ZArith Bool Arith Lia.
From Verif Require Import Base BaseFacts Utf8 Base64 SpecCodec Json Url Webtools Crypto RefCrypto Jwk Prog ProgFacts Http OAuth SpecReaders HeaderFacts SpecOAuth SpecHistory SpecFlow SpecRfc Example ExampleFacts OAuthRef OAuthFacts RequestFacts ResponseFacts RaiseFacts OAuthWit OAuthEx FlowWit RfcFacts JsonFacts.
Import ListNotations.
Open Scope string_scope.
Open Scope list_scope.
Open Scope N_scope.

(** C84: the exchange with other parameters, in another order, with another method and URL *)
Definition noisy_req : request :=
  req "POST" (lit "https://op.example/token?resource=x&code_verifier=wrong") ((lit "Accept", PStr (lit "text/html")) :: basic "web" "s3cret")
    (Some (query (L "audience" "y" :: rev (code_items the_code)))) None.
Lemma same_carries h h' : auth_header h = auth_header h' -> forall auth, carries h auth <-> carries h' auth.
Proof. intros H auth. rewrite <- !carries_spec, H. reflexivity. Qed.
Lemma noisy_same : same_credentials (code_req the_code) noisy_req /\ agree token_params (rq_data (code_req the_code)) (rq_data noisy_req).
Proof.
  split; [split; [apply same_carries; wit|]|]; intros k Hk; cbn [In credential_params token_params] in Hk;
    repeat (destruct Hk as [<-|Hk]; [wit|]); destruct Hk.
Qed.
Definition noisy_authz : request :=
  req "POST" (lit "https://op.example/authorize?prompt=login") [(lit "Accept", PStr (lit "text/html"))] (Some (query (rev authz_items ++ [L "ui_locales" "de"]))) (Some alice).
Lemma noisy_authz_same : rq_user authz_req = rq_user noisy_authz /\ agree authorization_params (rq_data authz_req) (rq_data noisy_authz).
Proof. split; [wit|]. intros k Hk. cbn [In authorization_params] in Hk. repeat (destruct Hk as [<-|Hk]; [wit|]). destruct Hk. Qed.
Definition plain_revoke : request := revoke_req (basic "web" "s3cret") [L "token" "tok8"; L "token_type_hint" "refresh_token"].
Definition noisy_revoke : request := req "GET" (lit "https://op.example/revoke?token=other") (basic "web" "s3cret") (Some (query [L "x" "1"; L "token_type_hint" "refresh_token"; L "token" "tok8"])) None.
Lemma noisy_revoke_same : (forall auth, carries (rq_headers plain_revoke) auth <-> carries (rq_headers noisy_revoke) auth) /\ agree revocation_params (form plain_revoke) (form noisy_revoke).
Proof. split; [apply same_carries; wit|]. intros k Hk. cbn [In revocation_params] in Hk. repeat (destruct Hk as [<-|Hk]; [wit|]). destruct Hk. Qed.

(** C85: everything in the URL of a GET request *)
Definition get_req : request := req "GET" (lit "https://op.example/token?" ++ query (code_items the_code)) (basic "web" "s3cret") None None.
Definition get_run := go (token_endpoint ref_env prov oidc get_req) (world_of run1).
Lemma wit_get : exists r tr x, made r /\ rq_method r = lit "GET" /\ rq_body r = None /\ exec (token_endpoint ref_env prov oidc r) tr (V x) /\ rs_status x = 200.
Proof.
  exists get_req, (trace_of get_run), (response_of (result_of get_run)). split; [unfold get_req; apply req_made; wit|]. split; [wit|]. split; [wit|].
  split; [apply (go_at _ (world_of run1)); wit|wit].
Qed.
Lemma p_method_ignored E p hs m m' url h b u r r' : make_request m url h b u = Ok r -> make_request m' url h b u = Ok r' ->
  token_endpoint E p hs r = token_endpoint E p hs r' /\ revocation_endpoint r = revocation_endpoint r'.
Proof.
  unfold make_request. intros H H'. apply rbind_ok in H as ([] & _ & H). apply rbind_ok in H as ([] & _ & H). injection H as <-.
  apply rbind_ok in H' as ([] & _ & H'). apply rbind_ok in H' as ([] & _ & H'). injection H' as <-. split; reflexivity.
Qed.

(** C86: a repeated parameter *)
Definition twice_items : params := [L "grant_type" "client_credentials"; L "client_id" "post"; L "client_secret" "hush"; L "scope" "admin"; L "scope" "openid"].
Definition twice_req : request := token_req [] twice_items.
Definition twice_go := go (token_endpoint ref_env prov oidc twice_req) world0.
Lemma wit_repeated : exists items tr x, ~ NoDup (keys items) /\ exec (token_endpoint ref_env prov oidc (token_req [] items)) tr (V x) /\ rs_status x = 200.
Proof.
  exists twice_items, (trace_of twice_go), (response_of (result_of twice_go)). split; [|split; [apply (go_at _ world0); wit|wit]].
  intros H. apply nodupb_spec in H. revert H. vm_compute. discriminate.
Qed.

(** C88, C92 *)
Definition guess_req (i : string) : request := token_req (basic i "guess") [L "grant_type" "authorization_code"; L "code" "tok1"].
Definition guess_run (i : string) := go (token_endpoint ref_env prov oidc (guess_req i)) world0.
Lemma guess_basic i : In i ["web"; "nobody"] -> basic_header (rq_headers (guess_req i)) (lit i) (lit "guess").
Proof.
  intros Hi. exists (lit "Basic"), (lit i ++ 58 :: lit "guess"). destruct Hi as [<-|[<-|[]]];
    (split; [apply basic_letters; reflexivity|]; split; [intros Hi; apply inc_In in Hi; discriminate|]; split; [discriminate|]; split; [discriminate|]; split; [slit|]; split; [slit|]; split; [wit|apply carries_at; wit]).
Qed.
Definition without_web : world := {| w_store := {| st_clients := [post; app]; st_users := [alice]; st_codes := []; st_rts := [] |}; w_count := 0; w_now := 1700000000000000 |}.
Definition absent_run := go (token_endpoint ref_env prov oidc (guess_req "web")) without_web.
Lemma wit_existence : exists r i x x', basic_header (rq_headers r) i (lit "guess") /\
  exec (token_endpoint ref_env prov oidc r) [OFindClient i (V (Some web))] (V x) /\ exec (token_endpoint ref_env prov oidc r) [OFindClient i (V None)] (V x') /\
  rs_body x <> rs_body x'.
Proof.
  exists (guess_req "web"), (lit "web"), (response_of (result_of (guess_run "web"))), (response_of (result_of absent_run)).
  split; [apply guess_basic; left; reflexivity|]. split; [apply (go_at _ world0); wit|]. split; [apply (go_at _ without_web); wit|].
  intros H. revert H. vm_compute. discriminate.
Qed.

(** C89: a verifier of one letter *)
Definition short_challenge : str := to_string (base64url_encode (sha SHA256 (lit "a"))).
Definition short_items : params :=
  [L "response_type" "code"; L "client_id" "web"; (lit "redirect_uri", cb); L "scope" "openid"; (lit "code_challenge", short_challenge); L "code_challenge_method" "S256"; L "nonce" "n"].
Definition short1 := run_authz short_items (Some alice).
Definition short_req : request := token_req (basic "web" "s3cret") (firstn 3 (code_items the_code) ++ [L "code_verifier" "a"]).
Definition short2 := go (token_endpoint ref_env prov oidc short_req) (world_of short1).
Lemma wit_short_verifier : exists r tr x v, data_has r "code_verifier" v /\ (length v < 43)%nat /\ exec (token_endpoint ref_env prov oidc r) tr (V x) /\ rs_status x = 200.
Proof.
  exists short_req, (trace_of short2), (response_of (result_of short2)), (lit "a"). split; [wit|]. split; [vm_compute; lia|]. split; [apply (go_at _ (world_of short1)); wit|wit].
Qed.
(** A plain challenge *)
Definition plain_items : params :=
  [L "response_type" "code"; L "client_id" "web"; (lit "redirect_uri", cb); L "scope" "openid"; L "code_challenge" verifier; L "code_challenge_method" "plain"; L "nonce" "n"].
Definition plain1 := run_authz plain_items (Some alice).
Definition plain2 := go (token_endpoint ref_env prov oidc (code_req the_code)) (world_of plain1).

(** C90 *)
Definition no_method_items : params := filter (fun kv => negb (eqs (fst kv) (lit "code_challenge_method"))) plain_items.
Definition no_method_run := run_authz no_method_items (Some alice).

(** C91: the client "app" presents the code of "web". *)
Definition steal_req : request := token_req [] [L "grant_type" "authorization_code"; L "client_id" "app"; (lit "code", the_code); L "redirect_uri" "https://app.example/cb"; L "code_verifier" "x"].
Definition steal_run := go (token_endpoint ref_env prov oidc steal_req) (world_of run1).
Definition after_steal := go (token_endpoint ref_env prov oidc (code_req the_code)) (world_of steal_run).
Lemma wit_burn : exists r tr x c ac, exec (token_endpoint ref_env prov oidc r) tr (V x) /\ In (OGetCode the_code (V (Some ac))) tr /\
  In (ODeleteCode the_code (V tt)) tr /\ In (OFindClient (cl_id c) (V (Some c))) tr /\ ac_client ac <> cl_id c /\
  status_of (result_of run2) = 200 /\ status_of (result_of after_steal) = 400.
Proof.
  exists steal_req, (trace_of steal_run), (response_of (result_of steal_run)), app, the_auth_code.
  split; [apply (go_at _ (world_of run1)); wit|]. split; [apply nth_error_In with (n := 1%nat); wit|]. split; [apply nth_error_In with (n := 2%nat); wit|].
  split; [apply nth_error_In with (n := 0%nat); wit|]. split; [discriminate|]. split; wit.
Qed.

(** C93: a state with a line break *)
Definition crlf_items : params := filter (fun kv => negb (eqs (fst kv) (lit "state"))) authz_items ++ [(lit "state", lit "x" ++ [13; 10] ++ lit "Set-Cookie: a=b")].
Definition crlf_run := run_authz crlf_items (Some alice).
(** C87 *)
Definition unknown_run := go (token_endpoint ref_env prov oidc (code_req (lit "tok99"))) (world_of run1).
Definition late_run := go (token_endpoint ref_env prov oidc (code_req the_code)) {| w_store := w_store (world_of run1); w_count := 9; w_now := 1700086401000000 |}.
Definition unknown_refresh := go (token_endpoint ref_env prov oidc (refresh_req (lit "tok99"))) (world_of run2).
