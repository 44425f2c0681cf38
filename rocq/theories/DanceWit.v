(** The whole flow among other requests, for the example of C181. *)
From Coq Require Import String Ascii List NArith ZArith Bool Arith Lia.
From Verif Require Import Base BaseFacts SpecReaders Utf8 Webtools Crypto Jwk Prog Http OAuth SpecOAuth SpecFlow SpecHook Example OAuthRef OAuthWit FlowWit HookWit App SpecApp AppFacts AppWit SpecKeep KeepWit SpecWho SpecSound SoundWit SpecAvail AvailWit ConsentWit JsonFacts OAuthFacts LoginLastWit.
Import ListNotations.
Open Scope string_scope.
Open Scope list_scope.
Open Scope N_scope.

Definition dance_run := ago (AuthorizePage, authz_visit "GET" cookie1) (after (firstn 1 avail_visits) aworld0).
Lemma dance_pages : map fst avail_visits = [LoginPage; AuthorizePage; TokenPage; LogoutPage; TokenPage]. Proof. reflexivity. Qed.
Lemma dance_stays l k q : forallb (fun x : nat * aobs => negb (fst x =? 3)%nat) l = true -> acted k l -> nth_error avail_visits k = Some q -> ~ logs_out avail_log k q (us_id alice).
Proof.
  intros Hl (o & Ho) Hq (H & _). rewrite forallb_forall in Hl. apply Hl in Ho. cbn [fst] in Ho.
  assert (Hf : nth_error (map fst avail_visits) k = Some (fst q)) by (apply map_nth_error; exact Hq). rewrite dance_pages, H in Hf. destruct k as [|[|[|[|[|[|k]]]]]]; discriminate.
Qed.
Lemma dance_names l k q : acted k l -> k <> 4%nat -> nth_error avail_visits k = Some q -> ~ names_code q (lit "tok6").
Proof.
  intros _ Hk Hq [H (ou & r & Hr & Hd)]. assert (Hf : nth_error (map fst avail_visits) k = Some (fst q)) by (apply map_nth_error; exact Hq). rewrite dance_pages, H in Hf.
  assert (k = 2%nat) as -> by (destruct k as [|[|[|[|[|[|k]]]]]]; try discriminate; [reflexivity|contradiction]).
  injection Hq as <-. vm_compute in Hr. injection Hr as <-. vm_compute in Hd. discriminate.
Qed.
Lemma dance_example : let w := authz_visit "GET" cookie1 in let w' := token_visit (plain_code (lit "tok6")) in
  let l1 := nil in let l2 := firstn 4 avail_log in let l3 := firstn 4 (skipn 4 avail_log) in let l4 := skipn 8 avail_log in
  (forall b, bytes_ok (e_sha256 ref_env b)) /\ hashes ref_env /\ hk_response oidc = [the_hook] /\
  app_running ref_env prov oidc avail_visits avail_log /\ app_steps light false tables0 (map snd avail_log) (aw_tables (after avail_visits aworld0)) /\
  NoDup (map us_id (st_users (tb_store tables0))) /\ In alice (st_users (tb_store tables0)) /\ NoDup (map cl_id (st_clients (tb_store tables0))) /\ In OAuthRef.web (st_clients (tb_store tables0)) /\
  NoDup (map fst (st_codes (tb_store tables0))) /\
  (exists loc, aexec (application ref_env prov oidc LoginPage (snd login_again)) (acalls_of 0 avail_log) (V (RRedirect loc (Some (us_id alice, lit "tok2"))))) /\
  avail_log = l1 ++ l2 ++ l3 ++ l4 /\ ~ acted 0 l1 /\ ~ acted 0 (l3 ++ l4) /\ ~ acted 1 (l1 ++ l2) /\ ~ acted 1 l4 /\ ~ acted 4 (l1 ++ l2 ++ l3) /\
  (forall k q, acted k (l2 ++ l3) -> nth_error avail_visits k = Some q -> ~ logs_out avail_log k q (us_id alice)) /\
  (exists x, aexec (application ref_env prov oidc AuthorizePage w) (acalls_of 1 avail_log) x) /\ wb_cookie w = Some (us_id alice, lit "tok2") /\ wb_method w = chars "GET" /\ taken_as w (Some alice) stay_request /\
  ano_raise (acalls_of 1 avail_log) /\ scalar_data (rq_data stay_request) /\ secrets_ok (lib_calls (acalls_of 1 avail_log)) /\
  code_request prov stay_request alice (cl_id OAuthRef.web) cb [lit "openid"; lit "email"] (lit verifier) (lit "plain") /\ In cb (cl_redirects OAuthRef.web) /\ In (chars "code") (cl_responses OAuthRef.web) /\
  incl [lit "openid"; lit "email"] (cl_allowed OAuthRef.web (Some [lit "openid"; lit "email"])) /\
  (forall k q, acted k (l3 ++ l4) -> k <> 4%nat -> nth_error avail_visits k = Some q -> ~ names_code q (lit "tok6")) /\
  (exists x, aexec (application ref_env prov oidc TokenPage w') (acalls_of 4 avail_log) x) /\ wb_cookie w' = None /\ wb_method w' = chars "POST" /\ taken_as w' None avail_request /\
  exchange_request prov avail_request (cl_id OAuthRef.web) OAuthRef.web (lit "tok6") cb (lit verifier) /\ pkce_ok (e_sha256 ref_env) (lit "plain") (lit verifier) (lit verifier) /\
  no_raise avail_tr /\ texts_ok avail_tr /\ (forall row e, In (OGetCode (lit "tok6") (V (Some row))) avail_tr -> ac_exp row = Naive e -> before e avail_tr) /\
  (forall h, In h (hk_response oidc) -> hook_served ref_env h avail_tr /\ quick (cf_id_token_lifespan (hk_config h)) avail_tr).
Proof.
  intros w w' l1 l2 l3 l4. split; [exact ref_sha|]. split; [exact ref_hashes|]. split; [reflexivity|]. split; [apply history_running|]. split; [exact (log_steps avail_visits 0 aworld0)|].
  split; [apply nodupb_spec; wit|]. split; [left; reflexivity|]. split; [exact (proj1 sound_set_up)|]. split; [left; reflexivity|]. split; [constructor|]. split.
  { assert (E1 : acalls_of 0 avail_log = atrace (ago login_again aworld0)) by wit. exists (host ++ authz_path).
    assert (E2 : aresult (ago login_again aworld0) = V (RRedirect (host ++ authz_path) (Some (us_id alice, lit "tok2")))) by wit. rewrite E1, <- E2. exact (ago_exec login_again aworld0). }
  split; [wit|]. split; [intros (o & [])|]. do 4 (split; [apply silent; wit|]). split; [intros k q; apply dance_stays; wit|]. split.
  { assert (E1 : acalls_of 1 avail_log = atrace dance_run) by wit. rewrite E1. eexists. exact (ago_exec (AuthorizePage, w) (after (firstn 1 avail_visits) aworld0)). }
  split; [reflexivity|]. split; [reflexivity|]. split; [wit|]. split; [apply ano_raise_at; wit|]. split; [apply scalar_at; wit|]. split; [apply secrets_at; wit|].
  split; [exact stay_code_request|]. split; [left; reflexivity|]. split; [left; reflexivity|]. split; [apply subsetb_incl; wit|]. split; [intros k q; apply dance_names|].
  assert (Hcb : ad_redirect avail_data = cb) by wit. assert (Hmd : ad_method avail_data = lit "plain") by wit. assert (Hch : ad_challenge avail_data = lit verifier) by wit.
  destruct avail_example as (_ & _ & _ & _ & _ & _ & _ & _ & _ & _ & _ & A1 & A2 & A3 & A4 & A5 & A6 & _ & _ & A7). rewrite Hcb in A5. rewrite Hmd, Hch in A6. auto 20.
Qed.
