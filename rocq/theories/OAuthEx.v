(** More of the reference runs, for the examples beside the properties of the endpoints, and corollaries. *)
From Coq Require Import String Ascii List NArith ZArith Bool.
From Verif Require Import Base BaseFacts Utf8 Base64 SpecCodec SpecKey Json Url Webtools UrlQuoteFacts Crypto RefCrypto Jwk Jws Jwt SpecJwt Prog ProgFacts Http OAuth SpecOAuth Example ExampleFacts OAuthRef OAuthFacts RequestFacts ResponseFacts AuthzFacts TokenFacts IdTokenFacts OAuthWit.
Import ListNotations.
Open Scope N_scope.

Lemma authz_made : made authz_req. Proof. unfold authz_req. apply req_made. wit. Qed.
Lemma code_made : made (code_req the_code). Proof. unfold code_req, token_req. apply req_made. wit. Qed.
Lemma run1_exec : exec (authorization_endpoint ref_env prov oidc authz_req) (trace_of run1) (result_of run1). Proof. unfold run1. apply go_exec. Qed.
Lemma run2_exec : exec (token_endpoint ref_env prov oidc (code_req the_code)) (trace_of run2) (result_of run2). Proof. unfold run2. apply go_exec. Qed.
Lemma run3_exec : exec (token_endpoint ref_env prov oidc (refresh_req (lit "tok8"))) (trace_of run3) (result_of run3). Proof. unfold run3. apply go_exec. Qed.
Lemma run_cc_exec items : exec (token_endpoint ref_env prov oidc (cc_req items)) (trace_of (run_cc items)) (result_of (run_cc items)). Proof. unfold run_cc. apply go_exec. Qed.
Lemma run_revoke_exec h items : exec (revocation_endpoint (revoke_req h items)) (trace_of (run_revoke h items)) (result_of (run_revoke h items)). Proof. unfold run_revoke. apply go_exec. Qed.
Lemma run_consent_exec items : exec (get_consent_data prov (req "GET" (authorization_url items) [] None None)) (trace_of (run_consent items)) (result_of (run_consent items)).
Proof. unfold run_consent. apply go_exec. Qed.
Lemma run_authz_exec items u : exec (authorization_endpoint ref_env prov oidc (req "GET" (authorization_url items) [] None u)) (trace_of (run_authz items u)) (result_of (run_authz items u)).
Proof. unfold run_authz. apply go_exec. Qed.

(** C47: without a user the state is dropped, at the registered redirect URI. *)
Lemma wit_state_dropped : exists r x q, made r /\ data_has r "state" (lit "x y") /\ data_has r "redirect_uri" cb /\ data_has r "client_id" (cl_id web) /\ In cb (cl_redirects web) /\
  exec (authorization_endpoint ref_env prov oidc r) [] (V x) /\ sends x cb q /\ SpecUrl.query_text [L "error" "access_denied"] q.
Proof.
  exists (req "GET" (authorization_url authz_items) [] None None), (response_of (result_of (run_authz authz_items None))), (lit "error=access_denied").
  split; [apply req_made; wit|]. split; [wit|]. split; [wit|]. split; [wit|]. split; [left; reflexivity|].
  split; [apply (go_at _ world0); wit|]. split; [|apply query_iff; wit]. exists cb. split; [wit|]. split; [apply location_iff; wit|wit].
Qed.

(** C49 *)
Lemma p_pkce E p hs r tr x o : (forall b, bytes_ok (e_sha256 E b)) ->
  exec (token_endpoint E p hs r) tr x -> data_has r "grant_type" (lit "authorization_code") -> In o tr -> creates_at o = true \/ creates_rt o = true ->
  exists code ac v, data_has r "code" code /\ In (OGetCode code (V (Some ac))) tr /\
    data_has r "code_verifier" v /\ pkce_ok (e_sha256 E) (ac_method ac) (ac_challenge ac) v.
Proof.
  intros Hsh H Hg Hin Hc. destruct (p_code_grant E _ _ _ _ _ _ Hsh H Hg Hin Hc) as (i & c & code & uri & v & ac & u & now & off & t & rest & -> & _ & Hco & _ & _ & _ & _ & _ & _ & Hv & Hp & _).
  exists code, ac, v. split; [auto|]. split; [right; left; auto|]. auto.
Qed.
(** C59 *)
Lemma p_code_user E p hs r tr x c o sc y : (forall b, bytes_ok (e_sha256 E b)) ->
  exec (token_endpoint E p hs r) tr x -> data_has r "grant_type" (lit "authorization_code") -> In (OCreateAT c o sc y) tr ->
  exists i u, o = OwnUser u /\ In (OFindUser i (V (Some u))) tr.
Proof.
  intros Hsh H Hg Hin. destruct (p_code_grant E _ _ _ _ _ _ Hsh H Hg Hin (or_introl eq_refl)) as (i & c' & code & uri & v & ac & u & now & off & t & rest & -> & _ & _ & _ & _ & _ & _ & _ & _ & _ & _ & [(y' & Ho)|[(y' & Ho) _]]); [|discriminate].
  injection Ho as _ -> _ _. exists (ac_user ac), u. split; [auto|]. right. right. right. left. auto.
Qed.
Lemma p_refresh_user E p hs r tr x c o sc y : order_ok E ->
  exec (token_endpoint E p hs r) tr x -> data_has r "grant_type" (lit "refresh_token") -> In (OCreateAT c o sc y) tr ->
  exists i ou, In (OFindUser i (V ou)) tr /\ o = match ou with Some u => OwnUser u | None => OwnNone end.
Proof.
  intros Hord H Hg Hin. destruct (p_refresh_grant E _ _ _ _ _ _ Hord H Hg Hin (or_introl eq_refl)) as (i & c' & token & t & now & off & d & ou & rest & sc' & -> & _ & _ & _ & _ & _ & [(y' & Ho)|[(y' & Ho) _]] & _); [|discriminate].
  injection Ho as _ -> _ _. exists (rt_user t), ou. split; [|destruct ou; reflexivity]. right. right. right. left. auto.
Qed.
Definition run1_data : auth_data :=
  {| ad_challenge := lit challenge; ad_method := lit "S256"; ad_redirect := cb; ad_scopes := [lit "openid"; lit "email"]; ad_state := Some (lit "x y"); ad_nonce := Some (lit "n1") |}.
(** C43, C46 *)
Lemma p_two_methods : exists r i s i' s', basic_header (rq_headers r) i s /\ form_has r "client_id" i' /\ form_has r "client_secret" s' /\ i <> i' /\
  exec (authenticate r []) [OFindClient i (V (Some web))] (V web).
Proof.
  destruct two_methods_accepted as (H1 & H2 & H3 & H4). exists two_methods, (lit "web"), (lit "s3cret"), (lit "post"), (lit "hush").
  split; [exact H1|]. split; [exact H2|]. split; [exact H3|]. split; [discriminate|]. exact H4.
Qed.
Lemma p_open_redirect : exists evil,
  (forall c, In c (st_clients store0) -> ~ In evil (cl_redirects c)) /\
  (exists r x q, made r /\ rq_user r = None /\ exec (authorization_endpoint ref_env prov oidc r) [] (V x) /\ sends x evil q) /\
  (exists r x q, made r /\ rq_user r = Some alice /\ exec (authorization_endpoint ref_env prov oidc r) [] (V x) /\ sends x evil q).
Proof.
  exists (lit "https://evil.example/x"). split; [exact open_redirect|]. split.
  - destruct open_redirect_1 as (r & x & q & H1 & H2 & H3 & _ & H4 & _). exists r, x, q. auto.
  - exact open_redirect_2.
Qed.
(** C56 *)
Lemma p_raises : forall e, In e [KeyError; UnicodeEncodeError; ValueError; TypeError] -> exists r tr, exec (token_endpoint ref_env prov oidc r) tr (X (Py e)) /\ no_raise tr.
Proof.
  intros e [<-|[<-|[<-|[<-|[]]]]]; [exists no_code_req; exact wit_raise_code | exists accent_req; exact wit_raise_verifier |
    exists odd_header_req; exact wit_raise_header | exists (refresh_req (lit "tok8")); exact (proj2 wit_raise_aware)].
Qed.
