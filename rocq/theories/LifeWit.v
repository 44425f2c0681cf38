(** Runs for the properties about how long codes, tokens and sessions live. *)
From Coq Require Import String Ascii List NArith ZArith Bool Arith Lia.
From Verif Require Import Base BaseFacts Utf8 SpecCodec Json Url Webtools Crypto RefCrypto Jwk Jws Jwt Prog ProgFacts Http OAuth SpecOAuth SpecHistory SpecFlow Example ExampleFacts OAuthRef OAuthWit LineageFacts HistoryWit FlowWit App SpecApp AppFacts AppWit SpecLife LifeFacts.
Import ListNotations.
Open Scope N_scope.

(** ** Fifteen days later *)
Definition later (n : Z) (w : world) : world := {| w_store := w_store w; w_count := w_count w; w_now := (w_now w + seconds n)%Z |}.
Definition again1 := go (authorization_endpoint ref_env prov oidc authz_req) (later 1296000 (world_of run2)).
Definition again2 := tok (code_req (lit "tok17")) (world_of again1).
Definition again3 := tok (refresh_req (lit "tok8")) (world_of again2).
Lemma status_answered x n : n <> 0 -> status_of x = n -> exists z, x = V z /\ rs_status z = n.
Proof. destruct x as [z|e]; cbn [status_of]; [eauto|congruence]. Qed.
Lemma tok_ran r w n : n <> 0 -> status_of (result_of (tok r w)) = n -> exists z, exec (token_endpoint ref_env prov oidc r) (trace_of (tok r w)) (V z) /\ rs_status z = n /\ body_of (result_of (tok r w)) = json_loads (rs_body z).
Proof. intros Hn H. destruct (status_answered _ _ Hn H) as (z & Hz & Hs). exists z. split; [rewrite <- Hz; apply go_exec|]. rewrite Hz. auto. Qed.
Lemma tok_steps r w : ex_steps light false (w_store w) (trace_of (tok r w)) (w_store (world_of (tok r w))).
Proof. apply go_steps. Qed.
Lemma tok_steps_later n r w : ex_steps light false (w_store w) (trace_of (tok r (later n w))) (w_store (world_of (tok r (later n w)))).
Proof. exact (tok_steps r (later n w)). Qed.
Lemma wit_unusable : exists r tr z s s1 r' tr' z' s2 k, exec (token_endpoint ref_env prov oidc r) tr (V z) /\ ex_steps light false s tr s1 /\ rs_status z = 200 /\
  member "refresh_token" (json_loads (rs_body z)) = PStr k /\ exec (token_endpoint ref_env prov oidc r') tr' (V z') /\ ex_steps light false s1 tr' s2 /\
  data_has r' "grant_type" (lit "refresh_token") /\ data_has r' "refresh_token" k /\ rs_status z' = 400 /\ member "error_description" (json_loads (rs_body z')) = PStr (lit "Refresh Token expired.").
Proof.
  destruct (tok_ran (code_req (lit "tok17")) (world_of again1) 200) as (z & H1 & H2 & H3); [discriminate|wit|].
  destruct (tok_ran (refresh_req (lit "tok8")) (world_of again2) 400) as (z' & H4 & H5 & H6); [discriminate|wit|].
  exists (code_req (lit "tok17")), (trace_of (tok (code_req (lit "tok17")) (world_of again1))), z, (w_store (world_of again1)), (w_store (world_of again2)),
    (refresh_req (lit "tok8")), (trace_of (tok (refresh_req (lit "tok8")) (world_of again2))), z', (w_store (world_of again3)), (lit "tok8").
  split; [exact H1|]. split; [exact (tok_steps _ (world_of again1))|]. split; [exact H2|]. split; [rewrite <- H3; wit|]. split; [exact H4|]. split; [exact (tok_steps _ (world_of again2))|].
  split; [wit|]. split; [wit|]. split; [exact H5|]. rewrite <- H6. wit.
Qed.

(** ** A code is used twice *)
Definition used1 := tok (code_req the_code) (world_of run1).
Definition used2 := tok (code_req the_code) (world_of used1).
Definition used3 := tok (refresh_req (lit "tok8")) (world_of used2).
Lemma wit_replay : exists r tr1 z1 tr2 z2 r' tr3 z3 s s1 s2 s3 k, exec (token_endpoint ref_env prov oidc r) tr1 (V z1) /\ ex_steps light false s tr1 s1 /\ rs_status z1 = 200 /\
  member "refresh_token" (json_loads (rs_body z1)) = PStr k /\ data_has r "grant_type" (lit "authorization_code") /\
  exec (token_endpoint ref_env prov oidc r) tr2 (V z2) /\ ex_steps light false s1 tr2 s2 /\ rs_status z2 = 400 /\
  exec (token_endpoint ref_env prov oidc r') tr3 (V z3) /\ ex_steps light false s2 tr3 s3 /\ data_has r' "grant_type" (lit "refresh_token") /\ data_has r' "refresh_token" k /\ rs_status z3 = 200.
Proof.
  destruct (tok_ran (code_req the_code) (world_of run1) 200) as (z1 & H1 & H2 & H3); [discriminate|wit|].
  destruct (tok_ran (code_req the_code) (world_of used1) 400) as (z2 & H4 & H5 & _); [discriminate|wit|].
  destruct (tok_ran (refresh_req (lit "tok8")) (world_of used2) 200) as (z3 & H6 & H7 & _); [discriminate|wit|].
  exists (code_req the_code), (trace_of (tok (code_req the_code) (world_of run1))), z1, (trace_of (tok (code_req the_code) (world_of used1))), z2,
    (refresh_req (lit "tok8")), (trace_of (tok (refresh_req (lit "tok8")) (world_of used2))), z3,
    (w_store (world_of run1)), (w_store (world_of used1)), (w_store (world_of used2)), (w_store (world_of used3)), (lit "tok8").
  split; [exact H1|]. split; [exact (tok_steps _ (world_of run1))|]. split; [exact H2|]. split; [rewrite <- H3; wit|]. split; [wit|]. split; [exact H4|]. split; [exact (tok_steps _ (world_of used1))|].
  split; [exact H5|]. split; [exact H6|]. split; [exact (tok_steps _ (world_of used2))|]. split; [wit|]. split; [wit|exact H7].
Qed.

(** ** A code is used at the end of its day *)
Definition no_ad : auth_data := {| ad_challenge := []; ad_method := []; ad_redirect := []; ad_scopes := []; ad_state := None; ad_nonce := None |}.
Definition saved_in (o : option obs) : auth_data := match o with Some (OSaveCode _ ad _ _ _) => ad | _ => no_ad end.
Definition ad1 : auth_data := saved_in (nth_error (trace_of run1) 2).
Definition choice1 : choice := w_choice {| w_store := store0; w_count := 2; w_now := 1700000000000000 |}.
Definition in_time := tok (code_req the_code) (later 86399 (world_of run1)).
Definition too_late := tok (code_req the_code) (later 86400 (world_of run1)).
Lemma saved1 : ex_do light false choice1 (SaveCode the_code ad1 OAuthRef.web alice) store0 = (V tt, w_store (world_of run1)).
Proof. wit. Qed.
Lemma wit_old_code : exists ch code ad c u s s1 r tr z s2 i y1 y2 off rest, ex_do light false ch (SaveCode code ad c u) s = (V tt, s1) /\
  exec (token_endpoint ref_env prov oidc r) tr (V z) /\ ex_steps light false s1 tr s2 /\ data_has r "code" code /\ rs_status z = 200 /\
  tr = OFindClient i y1 :: OGetCode code y2 :: ONow (V ((ch_now ch + seconds 86399)%Z, off)) :: rest.
Proof.
  destruct (tok_ran (code_req the_code) (later 86399 (world_of run1)) 200) as (z & H1 & H2 & _); [discriminate|wit|].
  exists choice1, the_code, ad1, OAuthRef.web, alice, store0, (w_store (world_of run1)), (code_req the_code), (trace_of (tok (code_req the_code) (later 86399 (world_of run1)))), z,
    (w_store (world_of (tok (code_req the_code) (later 86399 (world_of run1))))). do 5 eexists. split; [exact saved1|]. split; [exact H1|]. split; [apply tok_steps_later|]. split; [wit|]. split; [exact H2|]. wit.
Qed.

(** ** An access token is revoked *)
Definition str_of (v : pyval) : str := match v with PStr t => t | _ => [] end.
Definition token2 : str := str_of (member "access_token" (body_of (result_of run2))).
Lemma revoke_exec h items : exec (revocation_endpoint (revoke_req h items)) (trace_of (run_revoke h items)) (result_of (run_revoke h items)).
Proof. exact (go_exec (revocation_endpoint (revoke_req h items)) (world_of run2)). Qed.
Lemma revoke_steps h items : ex_steps light false (w_store (world_of run2)) (trace_of (run_revoke h items)) (w_store (world_of (run_revoke h items))).
Proof. exact (go_steps (revocation_endpoint (revoke_req h items)) (world_of run2)). Qed.
Definition revoke_at := run_revoke (basic "web" "s3cret") [(lit "token", token2)].
Definition answer (x : res (option response)) : option response := match x with V o => o | X _ => None end.
Definition decodes (now : Z) (t : str) : bool := match jwt_decode_str light now now t (Some SECRET_KEY) (PStr (lit "HS256")) true PNone with Ok _ => true | Err _ => false end.
Lemma answer_V x z : answer x = Some z -> x = V (Some z).
Proof. destruct x as [o|]; [|discriminate]. cbn [answer]. intros ->. reflexivity. Qed.
Lemma wit_revoke_at : exists r tr z s s' a tk, exec (revocation_endpoint r) tr (V (Some z)) /\ ex_steps light false s tr s' /\ rs_status z = 200 /\ form_has r "token" a /\
  member "access_token" (body_of (result_of run2)) = PStr a /\ s' = s /\ jwt_decode_str light 1700000001 1700000001 a (Some SECRET_KEY) (PStr (lit "HS256")) true PNone = Ok tk.
Proof.
  destruct (answer (result_of revoke_at)) as [z|] eqn:E; [|exfalso; revert E; vm_compute; discriminate]. pose proof (answer_V _ _ E) as Hz.
  assert (H2 : option_map rs_status (answer (result_of revoke_at)) = Some 200) by wit. rewrite E in H2. injection H2 as H2.
  destruct (jwt_decode_str light 1700000001 1700000001 token2 (Some SECRET_KEY) (PStr (lit "HS256")) true PNone) as [tk|] eqn:Ed; [|exfalso; revert Ed; vm_compute; discriminate].
  exists (revoke_req (basic "web" "s3cret") [(lit "token", token2)]), (trace_of revoke_at), z, (w_store (world_of run2)), (w_store (world_of revoke_at)), token2, tk.
  split; [rewrite <- Hz; exact (revoke_exec _ [(lit "token", token2)])|]. split; [exact (revoke_steps _ [(lit "token", token2)])|]. split; [exact H2|]. split; [wit|]. split; [wit|]. split; [wit|exact Ed].
Qed.
(** ... and a refresh token *)
Definition revoke_rt := run_revoke (basic "web" "s3cret") [L "token" "tok8"].
Definition after_revocation := tok (refresh_req (lit "tok8")) (world_of revoke_rt).
Definition revoked_visits : list (page * App.web) :=
  firstn 3 visits ++ [(RevokePage, revoke_visit [L "token" "tok13"]); (TokenPage, token_visit [L "grant_type" "refresh_token"; L "refresh_token" "tok13"])].

(** ** Logins *)
Definition wrong_form (email : string) : login_form := {| lf_email := lit email; lf_password := lit "wrong horse"; lf_valid := true |}.
Definition wrong_visit (email : string) : App.web := visit "POST" (lit "/auth/login") [] [] None (wrong_form email).
Definition no_accounts : aworld := {| aw_tables := {| tb_store := store0; tb_sessions := []; tb_accounts := [] |}; aw_count := 0; aw_now := 1700000000000000 |}.
Definition guess := ago (LoginPage, wrong_visit "a@x.example") aworld0.
Definition guess_nobody := ago (LoginPage, wrong_visit "a@x.example") no_accounts.
Lemma wrong0 : wrong_login tables0 (wrong_visit "a@x.example").
Proof. intros a [<-|[]] _. discriminate. Qed.
Lemma wrong1 : wrong_login (aw_tables no_accounts) (wrong_visit "a@x.example").
Proof. intros a []. Qed.
(** A GET request that saves a code *)
Definition get_code := ago (AuthorizePage, authz_visit "GET" cookie1) (after [login_again] aworld0).
Lemma wit_get_code : exists w tr x t t', aexec (application ref_env prov oidc AuthorizePage w) tr (V x) /\ safe_method (wb_method w) /\ app_steps light false t tr t' /\ st_codes (tb_store t) = [] /\ st_codes (tb_store t') <> [].
Proof.
  destruct (aresult get_code) as [x|e] eqn:E; [|exfalso; revert E; vm_compute; discriminate].
  exists (authz_visit "GET" cookie1), (atrace get_code), x, (aw_tables (after [login_again] aworld0)), (aw_tables (aworld_of get_code)).
  split; [rewrite <- E; exact (ago_exec (AuthorizePage, authz_visit "GET" cookie1) (after [login_again] aworld0))|]. split; [left; reflexivity|]. split; [apply arun_steps|]. split; [wit|]. vm_compute. discriminate.
Qed.
Definition head_logout := ago (LogoutPage, visit "HEAD" (lit "/auth/logout") [] [] cookie1 no_form) (after (firstn 3 visits) aworld0).
Definition second_login := ago login_again (after [login_again] aworld0).
