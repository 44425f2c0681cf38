(** A refresh token that others leave alone, for the example of C179. *)
From Coq Require Import String Ascii List NArith ZArith Bool Arith Lia.
From Verif Require Import Base SpecReaders Utf8 Webtools Crypto Jwk Prog Http OAuth SpecOAuth SpecFlow Example OAuthRef OAuthWit FlowWit HookWit App SpecApp AppFacts AppWit SpecKeep KeepWit SpecWho.
Import ListNotations.
Open Scope string_scope.
Open Scope list_scope.
Open Scope N_scope.

(** A login, a code, its tokens, the revocation of another token, a token request that fails, and the refresh *)
Definition refresh_visit : App.web := token_visit [L "grant_type" "refresh_token"; L "refresh_token" "tok13"].
Definition other_revocation : App.web := revoke_visit [L "token" "tok99"].
Definition last_visits : list (page * App.web) :=
  early ++ [(RevokePage, other_revocation); (TokenPage, token_visit (plain_code (lit "tok7"))); (TokenPage, refresh_visit)].
Definition last_log : list (nat * aobs) := log_of 0 last_visits aworld0.
Definition last_run := ago (TokenPage, refresh_visit) (after (firstn 5 last_visits) aworld0).
Definition last_tr : list obs := lib_calls (acalls_of 5 last_log).
Definition last_request : request := match make_request (lit "POST") (wb_url refresh_visit) (wb_headers refresh_visit) (Some (wb_body refresh_visit)) None with Ok r => r | Err _ => code_req [] end.
Lemma last_others j q uid : owner_id (OwnUser alice) = Ok uid -> acted j (skipn 14 last_log) -> nth_error last_visits j = Some q ->
  ~ logs_out last_log j q uid /\ ~ revokes_for tables0 last_log j q (cl_id OAuthRef.web) (lit "tok13").
Proof.
  intros _ (o & Ho) Hq.
  assert (Hj : forallb (fun x => (fst x =? 2)%nat || (fst x =? 3)%nat || (fst x =? 4)%nat || (fst x =? 5)%nat) (skipn 14 last_log) = true) by wit. rewrite forallb_forall in Hj. apply Hj in Ho. cbn [fst] in Ho.
  assert (Hj' : j = 2%nat \/ j = 3%nat \/ j = 4%nat \/ j = 5%nat).
  { apply orb_true_iff in Ho as [Ho|Ho]; [|apply Nat.eqb_eq in Ho; auto]. apply orb_true_iff in Ho as [Ho|Ho]; [|apply Nat.eqb_eq in Ho; auto].
    apply orb_true_iff in Ho as [Ho|Ho]; apply Nat.eqb_eq in Ho; auto. }
  assert (Hp : map fst last_visits = [LoginPage; AuthorizePage; TokenPage; RevokePage; TokenPage; TokenPage]) by reflexivity.
  assert (Hf : nth_error (map fst last_visits) j = Some (fst q)) by (apply map_nth_error; exact Hq). rewrite Hp in Hf. split.
  - intros (H & _). rewrite H in Hf. destruct Hj' as [->|[->|[->| ->]]]; discriminate.
  - intros (H & _ & ou & r & i & c & Hr & _ & _ & _ & _ & Ht). rewrite H in Hf. destruct Hj' as [->|[->|[->| ->]]]; try discriminate.
    assert (q = (RevokePage, other_revocation)) as -> by (change (nth_error last_visits 3) with (Some (RevokePage, other_revocation)) in Hq; congruence).
    cbn [snd] in Hr. vm_compute in Hr. injection Hr as <-. vm_compute in Ht. discriminate.
Qed.
Lemma last_texts : texts_ok last_tr.
Proof.
  split.
  - intros c o sc a H. assert (E : forallb (fun o => match o with OCreateAT _ _ sc (V a) => scalar_b a && forallb scalar_b sc | _ => true end) last_tr = true) by wit.
    rewrite forallb_forall in E. apply E in H. apply andb_true_iff in H as [H1 H2]. split; [apply scalar_b_ok; auto|]. apply Forall_forall. rewrite forallb_forall in H2. intros w Hw. apply scalar_b_ok. auto.
  - intros c o sc a H. assert (E : forallb (fun o => match o with OCreateRT _ _ sc (V (Some a)) => scalar_b a | _ => true end) last_tr = true) by wit.
    rewrite forallb_forall in E. apply E in H. apply scalar_b_ok; auto.
Qed.
Lemma last_before row : In (OGetRT (lit "tok13") (V (Some row))) last_tr -> exists e, rt_exp row = Naive e /\ before e last_tr.
Proof.
  intros H.
  assert (E : forallb (fun o => match o with ONow (V (n, _)) => (n <? 1700086400000000)%Z | OGetRT _ (V (Some row)) => match rt_exp row with Naive e => (1700086400000000 <=? e)%Z | _ => false end | _ => true end) last_tr = true) by wit.
  rewrite forallb_forall in E. apply E in H. destruct (rt_exp row) as [e|e]; [|discriminate]. exists e. split; [reflexivity|]. intros now off Hn. apply E in Hn. apply Z.ltb_lt in Hn. apply Z.leb_le in H. lia.
Qed.
Lemma last_example : let l1 := firstn 13 last_log in let l2 := skipn 14 last_log in
  order_ok ref_env /\ app_running ref_env prov oidc last_visits last_log /\ app_steps light false tables0 (map snd last_log) (aw_tables (after last_visits aworld0)) /\
  NoDup (map fst (st_rts (tb_store tables0))) /\
  last_log = l1 ++ (2%nat, OLib (OCreateRT OAuthRef.web (OwnUser alice) [lit "openid"; lit "email"] (V (Some (lit "tok13"))))) :: l2 /\ ~ acted 5 l1 /\
  (forall j q uid, owner_id (OwnUser alice) = Ok uid -> acted j l2 -> nth_error last_visits j = Some q ->
     ~ logs_out last_log j q uid /\ ~ revokes_for tables0 last_log j q (cl_id OAuthRef.web) (lit "tok13")) /\ acted 3 l2 /\ acted 4 l2 /\
  (exists x, aexec (application ref_env prov oidc TokenPage refresh_visit) (acalls_of 5 last_log) x) /\ wb_cookie refresh_visit = None /\ wb_method refresh_visit = chars "POST" /\
  taken_as refresh_visit None last_request /\ In GRefresh (pv_grants prov) /\ In (chars "refresh_token") (cl_grants OAuthRef.web) /\ presents last_request (cl_id OAuthRef.web) OAuthRef.web /\
  data_has last_request "grant_type" (chars "refresh_token") /\ data_has last_request "refresh_token" (lit "tok13") /\ asks_none last_request /\
  no_raise last_tr /\ texts_ok last_tr /\ (forall row, In (OGetRT (lit "tok13") (V (Some row))) last_tr -> exists e, rt_exp row = Naive e /\ before e last_tr).
Proof.
  intros l1 l2. split; [exact ref_order|]. split; [apply history_running|]. split; [exact (log_steps last_visits 0 aworld0)|]. split; [constructor|]. split; [wit|]. split.
  { intros (o & Ho). assert (Hj : forallb (fun x => negb (fst x =? 5)%nat) (firstn 13 last_log) = true) by wit. rewrite forallb_forall in Hj. apply Hj in Ho. discriminate. }
  split; [exact last_others|]. split; [eexists; apply nth_error_In with (n := 7%nat); wit|]. split; [eexists; apply nth_error_In with (n := 9%nat); wit|]. split.
  { assert (E1 : acalls_of 5 last_log = atrace last_run) by wit. rewrite E1. eexists. exact (ago_exec (TokenPage, refresh_visit) (after (firstn 5 last_visits) aworld0)). }
  split; [reflexivity|]. split; [reflexivity|]. split; [wit|]. split; [right; right; left; reflexivity|]. split; [right; left; reflexivity|]. split; [apply basic_web; wit|].
  split; [wit|]. split; [wit|]. split; [wit|]. split; [apply no_raise_at; wit|]. split; [exact last_texts|exact last_before].
Qed.
