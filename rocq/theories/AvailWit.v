(** A code that others leave alone, for the example of C178. *)
From Coq Require Import String Ascii List NArith ZArith Bool Arith Lia.
From Verif Require Import Base SpecReaders Utf8 Webtools Crypto Jwk Prog Http OAuth SpecOAuth SpecFlow SpecHook Example OAuthRef OAuthWit FlowWit HookWit App SpecApp AppFacts AppWit SpecKeep SpecWho SpecAvail.
Import ListNotations.
Open Scope string_scope.
Open Scope list_scope.
Open Scope N_scope.

(** A login, a code, a token request with another code, the logout, and the exchange of the first code *)
Definition avail_visits : list (page * App.web) :=
  [login_again; (AuthorizePage, authz_visit "GET" cookie1); (TokenPage, token_visit (plain_code (lit "tok7"))); (LogoutPage, logout_visit cookie1); (TokenPage, token_visit (plain_code (lit "tok6")))].
Definition avail_log : list (nat * aobs) := log_of 0 avail_visits aworld0.
Definition avail_run := ago (TokenPage, token_visit (plain_code (lit "tok6"))) (after (firstn 4 avail_visits) aworld0).
Definition avail_tr : list obs := lib_calls (acalls_of 4 avail_log).
Definition avail_data : auth_data := match nth_error avail_log 7 with Some (_, OLib (OSaveCode _ ad _ _ _)) => ad | _ => {| ad_challenge := []; ad_method := []; ad_redirect := []; ad_scopes := []; ad_state := None; ad_nonce := None |} end.
Definition avail_request : request := match make_request (lit "POST") (wb_url (token_visit (plain_code (lit "tok6")))) (wb_headers (token_visit (plain_code (lit "tok6")))) (Some (wb_body (token_visit (plain_code (lit "tok6"))))) None with Ok r => r | Err _ => code_req [] end.
Lemma avail_saved : avail_log = firstn 7 avail_log ++ (1%nat, OLib (OSaveCode (lit "tok6") avail_data OAuthRef.web alice (V tt))) :: skipn 8 avail_log. Proof. wit. Qed.
Lemma avail_others j q : acted j (skipn 8 avail_log) -> j <> 4%nat -> nth_error avail_visits j = Some q -> ~ names_code q (lit "tok6").
Proof.
  intros (o & Ho) Hne Hq [Hp (ou & r & Hr & Hd)].
  assert (Hj : forallb (fun x => (fst x =? 2)%nat || (fst x =? 3)%nat || (fst x =? 4)%nat) (skipn 8 avail_log) = true) by wit. rewrite forallb_forall in Hj. apply Hj in Ho. cbn [fst] in Ho.
  assert (Hj' : j = 2%nat \/ j = 3%nat).
  { apply orb_true_iff in Ho as [Ho|Ho]; [apply orb_true_iff in Ho as [Ho|Ho]; apply Nat.eqb_eq in Ho; auto|]. apply Nat.eqb_eq in Ho. contradiction. }
  destruct Hj' as [-> | ->]; injection Hq as <-; [|discriminate]. vm_compute in Hr. injection Hr as <-. vm_compute in Hd. discriminate.
Qed.
Lemma avail_texts : texts_ok avail_tr.
Proof.
  split.
  - intros c o sc a H. assert (E : forallb (fun o => match o with OCreateAT _ _ sc (V a) => scalar_b a && forallb scalar_b sc | _ => true end) avail_tr = true) by wit.
    rewrite forallb_forall in E. apply E in H. apply andb_true_iff in H as [H1 H2]. split; [apply scalar_b_ok; auto|]. apply Forall_forall. rewrite forallb_forall in H2. intros w Hw. apply scalar_b_ok. auto.
  - intros c o sc a H. assert (E : forallb (fun o => match o with OCreateRT _ _ sc (V (Some a)) => scalar_b a | _ => true end) avail_tr = true) by wit.
    rewrite forallb_forall in E. apply E in H. apply scalar_b_ok; auto.
Qed.
Lemma app_inv_both {A} (a b c d : list A) : length a = length c -> a ++ b = c ++ d -> b = d.
Proof. revert c. induction a as [|x a IH]; intros [|y c] Hl H; try discriminate; [exact H|]. injection Hl as Hl. injection H as _ H. eauto. Qed.
Lemma avail_served : hook_served ref_env the_hook avail_tr.
Proof.
  split; [|split].
  - intros y H. exists SECRET_KEY, (lit "HS256"). split; [|exact secret_signing].
    assert (E : map (fun o => match o with OGetKeyInfo _ y => Some y | _ => None end) avail_tr = map (fun o => match o with OGetKeyInfo _ _ => Some (V (SECRET_KEY, lit "HS256")) | _ => None end) avail_tr) by wit.
    apply in_split in H as (a & b & H). rewrite H, !map_app in E. apply app_inv_both in E as E'; [|rewrite !map_length; reflexivity]. cbn [map] in E'. injection E' as -> _. reflexivity.
  - intros u sc y H. exists alice_info. split; [|exact alice_user_claims].
    assert (E : map (fun o => match o with OGetUserinfo _ _ _ y => Some y | _ => None end) avail_tr = map (fun o => match o with OGetUserinfo _ _ _ _ => Some (V alice_info) | _ => None end) avail_tr) by wit.
    apply in_split in H as (a & b & H). rewrite H, !map_app in E. apply app_inv_both in E as E'; [|rewrite !map_length; reflexivity]. cbn [map] in E'. injection E' as -> _. reflexivity.
  - apply run2_served.
Qed.
Lemma avail_quick : quick 36000 avail_tr.
Proof.
  intros t1 a oa t2 b ob t3 H.
  assert (E : forallb (fun o => match o with ONow (V (n, off)) => (n =? 1700000000000000)%Z && (off =? 0)%Z | _ => true end) avail_tr = true) by wit.
  rewrite forallb_forall in E. rewrite H in E.
  assert (Ha := E (ONow (V (a, oa)))). assert (Hb := E (ONow (V (b, ob)))).
  assert (Ha' : ((a =? 1700000000000000) && (oa =? 0))%Z = true) by (apply Ha; apply in_app_iff; right; left; reflexivity).
  assert (Hb' : ((b =? 1700000000000000) && (ob =? 0))%Z = true) by (apply Hb; apply in_app_iff; right; right; apply in_app_iff; right; left; reflexivity).
  apply andb_true_iff in Ha' as [A1 A2]. apply andb_true_iff in Hb' as [B1 B2]. apply Z.eqb_eq in A1, A2, B1, B2. subst. lia.
Qed.
Lemma avail_before row e : In (OGetCode (lit "tok6") (V (Some row))) avail_tr -> ac_exp row = Naive e -> before e avail_tr.
Proof.
  intros H He now off Hn.
  assert (E : forallb (fun o => match o with ONow (V (n, _)) => (n <? 1700086400000000)%Z | OGetCode _ (V (Some row)) => match ac_exp row with Naive e => (1700086400000000 <=? e)%Z | _ => false end | _ => true end) avail_tr = true) by wit.
  rewrite forallb_forall in E. apply E in Hn. apply E in H. rewrite He in H. apply Z.ltb_lt in Hn. apply Z.leb_le in H. lia.
Qed.
Lemma avail_example : let w := token_visit (plain_code (lit "tok6")) in let l1 := firstn 7 avail_log in let l2 := skipn 8 avail_log in
  (forall b, bytes_ok (e_sha256 ref_env b)) /\ hashes ref_env /\ hk_response oidc = [the_hook] /\
  app_running ref_env prov oidc avail_visits avail_log /\ app_steps light false tables0 (map snd avail_log) (aw_tables (after avail_visits aworld0)) /\
  NoDup (map fst (st_codes (tb_store tables0))) /\ avail_log = l1 ++ (1%nat, OLib (OSaveCode (lit "tok6") avail_data OAuthRef.web alice (V tt))) :: l2 /\ ~ acted 4 l1 /\
  (forall j q, acted j l2 -> j <> 4%nat -> nth_error avail_visits j = Some q -> ~ names_code q (lit "tok6")) /\ acted 2 l2 /\ acted 3 l2 /\
  (exists x, aexec (application ref_env prov oidc TokenPage w) (acalls_of 4 avail_log) x) /\ wb_cookie w = None /\ wb_method w = chars "POST" /\ taken_as w None avail_request /\
  exchange_request prov avail_request (cl_id OAuthRef.web) OAuthRef.web (lit "tok6") (ad_redirect avail_data) (lit verifier) /\
  pkce_ok (e_sha256 ref_env) (ad_method avail_data) (ad_challenge avail_data) (lit verifier) /\ ad_scopes avail_data = [lit "openid"; lit "email"] /\ scalar_str (cl_id OAuthRef.web) /\
  no_raise avail_tr /\ texts_ok avail_tr /\ (forall row e, In (OGetCode (lit "tok6") (V (Some row))) avail_tr -> ac_exp row = Naive e -> before e avail_tr) /\
  (forall h, In h (hk_response oidc) -> hook_served ref_env h avail_tr /\ quick (cf_id_token_lifespan (hk_config h)) avail_tr).
Proof.
  intros w l1 l2. split; [exact ref_sha|]. split; [exact ref_hashes|]. split; [reflexivity|]. split; [apply history_running|]. split; [exact (log_steps avail_visits 0 aworld0)|]. split; [constructor|].
  split; [exact avail_saved|]. split.
  { intros (o & Ho). assert (Hj : forallb (fun x => negb (fst x =? 4)%nat) (firstn 7 avail_log) = true) by wit. rewrite forallb_forall in Hj. apply Hj in Ho. discriminate. }
  split; [exact avail_others|]. split; [eexists; apply nth_error_In with (n := 0%nat); wit|]. split; [eexists; apply nth_error_In with (n := 4%nat); wit|]. split.
  { assert (E1 : acalls_of 4 avail_log = atrace avail_run) by wit. rewrite E1. eexists. exact (ago_exec (TokenPage, w) (after (firstn 4 avail_visits) aworld0)). }
  split; [reflexivity|]. split; [reflexivity|]. split; [wit|]. split.
  { split; [left; reflexivity|]. split; [left; reflexivity|]. split; [apply basic_web; wit|]. split; [wit|]. split; [wit|]. split; [wit|]. split; [wit|].
    split; [discriminate|]. split; [vm_compute; discriminate|]. split; [discriminate|]. left. wit. }
  split; [left; split; wit|]. split; [wit|]. split; [apply scalar_b_ok; wit|].
  split; [apply no_raise_at; wit|]. split; [exact avail_texts|]. split; [exact avail_before|]. intros h [<-|[]]. split; [exact avail_served|exact avail_quick].
Qed.
Lemma avail_names : ~ names_code (TokenPage, token_visit (plain_code (lit "tok7"))) (lit "tok6") /\ names_code (TokenPage, token_visit (plain_code (lit "tok6"))) (lit "tok6").
Proof.
  split.
  - intros [_ (ou & r & Hr & Hd)]. vm_compute in Hr. injection Hr as <-. vm_compute in Hd. discriminate.
  - split; [reflexivity|]. exists None, avail_request. split; wit.
Qed.
