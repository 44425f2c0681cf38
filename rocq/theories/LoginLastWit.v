(** A login and an authorization, for the example of C180. *)
From Coq Require Import String Ascii List NArith ZArith Bool Arith Lia.
From Verif Require Import Base SpecReaders Utf8 Webtools Crypto Jwk Prog Http OAuth SpecOAuth SpecFlow Example OAuthRef OAuthWit FlowWit HookWit App SpecApp AppFacts AppWit SpecKeep KeepWit SpecWho SpecSound SoundWit ConsentWit JsonFacts OAuthFacts BaseFacts.
Import ListNotations.
Open Scope string_scope.
Open Scope list_scope.
Open Scope N_scope.

(** A login, a token request that fails, and the authorization *)
Definition stay_visits : list (page * App.web) := [login_again; (TokenPage, token_visit (plain_code (lit "tok7"))); (AuthorizePage, authz_visit "GET" cookie1)].
Definition stay_log : list (nat * aobs) := log_of 0 stay_visits aworld0.
Definition stay_run := ago (AuthorizePage, authz_visit "GET" cookie1) (after (firstn 2 stay_visits) aworld0).
Definition stay_request : request :=
  match make_request (lit "GET") (wb_url (authz_visit "GET" cookie1)) (wb_headers (authz_visit "GET" cookie1)) (Some (wb_body (authz_visit "GET" cookie1))) (Some alice) with Ok r => r | Err _ => code_req [] end.
Lemma silent j l : forallb (fun x : nat * aobs => negb (fst x =? j)%nat) l = true -> ~ acted j l.
Proof. intros H (o & Ho). rewrite forallb_forall in H. apply H in Ho. cbn [fst] in Ho. rewrite Nat.eqb_refl in Ho. discriminate. Qed.
Lemma stay_others l j q : acted j l -> nth_error stay_visits j = Some q -> ~ logs_out stay_log j q (us_id alice).
Proof.
  intros (o & Ho) Hq (H & _).
  assert (Hp : map fst stay_visits = [LoginPage; TokenPage; AuthorizePage]) by reflexivity.
  assert (Hf : nth_error (map fst stay_visits) j = Some (fst q)) by (apply map_nth_error; exact Hq). rewrite Hp, H in Hf. destruct j as [|[|[|[|j]]]]; discriminate.
Qed.
Lemma stay_code_request : code_request prov stay_request alice (cl_id OAuthRef.web) cb [lit "openid"; lit "email"] (lit verifier) (lit "plain").
Proof.
  split; [wit|]. split; [wit|]. split; [wit|]. split; [wit|]. split; [apply asks_at; wit|]. split; [wit|]. split; [vm_compute; lia|]. split; [wit|].
  split; [left; reflexivity|]. split; [left; reflexivity|]. intros w Hw. apply ins_In. destruct Hw as [<-|[<-|[]]]; wit.
Qed.
Lemma stay_example : let w := authz_visit "GET" cookie1 in let l1 := firstn 0 stay_log in let l2 := firstn 4 stay_log in let l3 := skipn 4 stay_log in let l4 := nil in
  app_running ref_env prov oidc stay_visits stay_log /\ app_steps light false tables0 (map snd stay_log) (aw_tables (after stay_visits aworld0)) /\
  NoDup (map us_id (st_users (tb_store tables0))) /\ In alice (st_users (tb_store tables0)) /\ NoDup (map cl_id (st_clients (tb_store tables0))) /\ In OAuthRef.web (st_clients (tb_store tables0)) /\
  (exists loc, aexec (application ref_env prov oidc LoginPage (snd login_again)) (acalls_of 0 stay_log) (V (RRedirect loc (Some (us_id alice, lit "tok2"))))) /\
  stay_log = l1 ++ l2 ++ l3 ++ l4 /\ ~ acted 0 l1 /\ ~ acted 0 (l3 ++ l4) /\ ~ acted 2 (l1 ++ l2) /\ ~ acted 2 l4 /\ acted 1 l3 /\
  (forall j q, acted j (l2 ++ l3) -> nth_error stay_visits j = Some q -> ~ logs_out stay_log j q (us_id alice)) /\
  (exists x, aexec (application ref_env prov oidc AuthorizePage w) (acalls_of 2 stay_log) x) /\ wb_cookie w = Some (us_id alice, lit "tok2") /\ wb_method w = chars "GET" /\ taken_as w (Some alice) stay_request /\
  ano_raise (acalls_of 2 stay_log) /\ scalar_data (rq_data stay_request) /\ secrets_ok (lib_calls (acalls_of 2 stay_log)) /\
  code_request prov stay_request alice (cl_id OAuthRef.web) cb [lit "openid"; lit "email"] (lit verifier) (lit "plain") /\ In cb (cl_redirects OAuthRef.web) /\ In (chars "code") (cl_responses OAuthRef.web) /\
  incl [lit "openid"; lit "email"] (cl_allowed OAuthRef.web (Some [lit "openid"; lit "email"])).
Proof.
  intros w l1 l2 l3 l4. split; [apply history_running|]. split; [exact (log_steps stay_visits 0 aworld0)|]. split; [apply nodupb_spec; wit|]. split; [left; reflexivity|].
  split; [exact (proj1 sound_set_up)|]. split; [left; reflexivity|]. split.
  { assert (E1 : acalls_of 0 stay_log = atrace (ago login_again aworld0)) by wit. exists (host ++ authz_path).
    assert (E2 : aresult (ago login_again aworld0) = V (RRedirect (host ++ authz_path) (Some (us_id alice, lit "tok2")))) by wit. rewrite E1, <- E2. exact (ago_exec login_again aworld0). }
  split; [wit|]. split; [intros (o & [])|]. split; [apply silent; wit|]. split; [apply silent; wit|]. split; [intros (o & [])|]. split; [eexists; apply nth_error_In with (n := 0%nat); wit|]. split; [apply stay_others|]. split.
  { assert (E1 : acalls_of 2 stay_log = atrace stay_run) by wit. rewrite E1. eexists. exact (ago_exec (AuthorizePage, w) (after (firstn 2 stay_visits) aworld0)). }
  split; [reflexivity|]. split; [reflexivity|]. split; [wit|]. split; [apply ano_raise_at; wit|].
  split; [apply scalar_at; wit|]. split; [apply secrets_at; wit|]. split; [exact stay_code_request|]. split; [left; reflexivity|]. split; [left; reflexivity|]. apply subsetb_incl. wit.
Qed.
