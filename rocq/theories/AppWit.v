(** Runs of the example application. *)
From Coq Require Import String Ascii List NArith ZArith Bool Arith Lia.
From Verif Require Import Base BaseFacts Utf8 Base64 Json Url Webtools Crypto RefCrypto Jwk Prog ProgFacts Http OAuth SpecOAuth SpecHistory SpecFlow Example ExampleFacts OAuthRef OAuthWit LineageFacts HistoryWit FlowWit App SpecApp AppFacts.
Import ListNotations.
Open Scope N_scope.

(** ** Running requests one after the other *)
Definition ago (q : page * App.web) (w : aworld) : list aobs * res reply * aworld := arun light false (application ref_env prov oidc (fst q) (snd q)) w.
Definition atrace {A} (x : list aobs * res A * aworld) : list aobs := fst (fst x).
Definition aresult {A} (x : list aobs * res A * aworld) : res A := snd (fst x).
Definition aworld_of {A} (x : list aobs * res A * aworld) : aworld := snd x.
Fixpoint log_of (k : nat) (qs : list (page * App.web)) (w : aworld) : list (nat * aobs) :=
  match qs with [] => [] | q :: r => map (pair k) (atrace (ago q w)) ++ log_of (S k) r (aworld_of (ago q w)) end.
Fixpoint after (qs : list (page * App.web)) (w : aworld) : aworld := match qs with [] => w | q :: r => after r (aworld_of (ago q w)) end.
Lemma arun_exec {A} C aware (p : aprog A) : forall w, aexec p (atrace (arun C aware p w)) (aresult (arun C aware p w)).
Proof.
  induction p as [x|T e k IH]; intros w; cbn [arun]; [split; reflexivity|].
  destruct (app_do C aware (aw_choice w) e (aw_tables w)) as [x t]. specialize (IH x {| aw_tables := t; aw_count := aw_count w + 1; aw_now := aw_now w |}).
  destruct (arun C aware (k x) _) as [[tr r] w']. apply aexec_ADo. exists x, tr. split; [reflexivity|exact IH].
Qed.
Lemma arun_steps {A} C aware (p : aprog A) : forall w, app_steps C aware (aw_tables w) (atrace (arun C aware p w)) (aw_tables (aworld_of (arun C aware p w))).
Proof.
  induction p as [x|T e k IH]; intros w; cbn [arun]; [constructor|].
  pose proof (app_ok C aware (aw_choice w) T e (aw_tables w)) as Hs.
  destruct (app_do C aware (aw_choice w) e (aw_tables w)) as [x t]. specialize (IH x {| aw_tables := t; aw_count := aw_count w + 1; aw_now := aw_now w |}).
  destruct (arun C aware (k x) _) as [[tr r] w']. econstructor; [exact Hs|exact IH].
Qed.
Lemma map_pair {A} (k : nat) (l : list A) : map snd (map (pair k) l) = l.
Proof. rewrite map_map. apply map_id. Qed.
Lemma log_steps : forall qs k w, app_steps light false (aw_tables w) (map snd (log_of k qs w)) (aw_tables (after qs w)).
Proof.
  induction qs as [|q qs IH]; intros k w; cbn [log_of after map]; [constructor|]. rewrite map_app, map_pair. apply app_steps_app. eexists. split; [apply arun_steps|]. apply IH.
Qed.
Lemma log_ge : forall qs k w n o, In (n, o) (log_of k qs w) -> (k <= n)%nat /\ (n < k + length qs)%nat.
Proof.
  induction qs as [|q qs IH]; intros k w n o Hin; cbn [log_of] in Hin; [destruct Hin|]. cbn [length]. apply in_app_iff in Hin as [Hin|Hin].
  - apply in_map_iff in Hin as (z & [= <- <-] & _). lia.
  - apply IH in Hin. lia.
Qed.
Lemma acalls_none n log : (forall m o, In (m, o) log -> m <> n) -> acalls_of n log = [].
Proof.
  intros H. destruct (acalls_of n log) as [|o l] eqn:E; [reflexivity|]. exfalso. assert (Hin : In (n, o) log) by (apply acalls_In; rewrite E; left; reflexivity).
  exact (H _ _ Hin eq_refl).
Qed.
Lemma acalls_pair n l : acalls_of n (map (pair n) l) = l.
Proof. induction l as [|o l IH]; [reflexivity|]. cbn [map]. rewrite acalls_here, IH. reflexivity. Qed.
Lemma log_running : forall qs k w n g v, nth_error qs n = Some (g, v) -> exists x, aexec (application ref_env prov oidc g v) (acalls_of (k + n) (log_of k qs w)) x.
Proof.
  induction qs as [|q qs IH]; intros k w n g v Hn; [destruct n; discriminate|]. destruct n as [|n]; cbn [nth_error] in Hn; cbn [log_of].
  - injection Hn as ->. rewrite Nat.add_0_r, acalls_app, acalls_pair, acalls_none; [|intros m o Hin ->; apply log_ge in Hin; lia].
    rewrite app_nil_r. eexists. apply (arun_exec light false (application ref_env prov oidc g v) w).
  - destruct (IH (S k) (aworld_of (ago q w)) n g v Hn) as [x Hx]. exists x. rewrite acalls_app. replace (k + S n)%nat with (S k + n)%nat by lia.
    rewrite acalls_none; [exact Hx|]. intros m o Hin ->. apply in_map_iff in Hin as (z & [= Hk] & _). lia.
Qed.
Lemma history_running qs w : app_running ref_env prov oidc qs (log_of 0 qs w).
Proof.
  split.
  - intros n o Hin. apply log_ge in Hin. destruct (nth_error qs n) eqn:E; [eauto|]. apply nth_error_None in E. lia.
  - intros n g v Hn. destruct (log_running qs 0 w n g v Hn) as [x Hx]. exists [], x. rewrite app_nil_r. exact Hx.
Qed.
(** Two entries of a log *)
Lemma two_entries {A} (l : list A) i j a b : nth_error l i = Some a -> nth_error l (S i + j) = Some b ->
  l = firstn i l ++ a :: firstn j (skipn (S i) l) ++ b :: skipn (S j) (skipn (S i) l).
Proof.
  intros Ha Hb. assert (H1 : forall k (l : list A) x, nth_error l k = Some x -> l = firstn k l ++ x :: skipn (S k) l).
  { induction k as [|k IH]; intros [|y l'] x Hx; try discriminate; cbn [nth_error] in Hx; [injection Hx as ->; reflexivity|]. change (y :: l' = y :: (firstn k l' ++ x :: skipn (S k) l')). f_equal. apply IH, Hx. }
  assert (H2 : nth_error (skipn (S i) l) j = Some b).
  { rewrite <- Hb. clear. revert l. generalize (S i) as k. induction k as [|k IH]; intros l; [reflexivity|]. destruct l as [|y l]; [destruct j; reflexivity|]. apply IH. }
  rewrite (H1 i l a Ha) at 1. do 2 f_equal. apply H1, H2.
Qed.

(** ** Alice logs in, authorizes a client, logs out, and again *)
Definition tables0 : tables := {| tb_store := store0; tb_sessions := []; tb_accounts := [{| a_id := lit "alice"; a_email := lit "a@x.example"; a_password := lit "correct horse" |}] |}.
Definition aworld0 : aworld := {| aw_tables := tables0; aw_count := 0; aw_now := 1700000000000000 |}.
Definition host : str := lit "http://localhost:8000".
Definition no_form : login_form := {| lf_email := []; lf_password := []; lf_valid := false |}.
Definition visit (method : string) (path : str) (headers : pdict) (body : bytes) (cookie : option (str * str)) (f : login_form) : App.web :=
  {| wb_method := lit method; wb_base := host; wb_url := host ++ path; wb_headers := headers; wb_body := body; wb_cookie := cookie; wb_form := f |}.
Definition plain_items : params :=
  [L "response_type" "code"; L "client_id" "web"; (lit "redirect_uri", cb); L "scope" "openid email"; L "state" "x y"; L "code_challenge" verifier; L "code_challenge_method" "plain"; L "nonce" "n1"].
Definition authz_path : str := lit "/connect/authorize?" ++ query plain_items.
Definition authz_visit (method : string) (cookie : option (str * str)) : App.web := visit method authz_path [] [] cookie no_form.
Definition right_form : login_form := {| lf_email := lit "a@x.example"; lf_password := lit "correct horse"; lf_valid := true |}.
Definition login_at (next : str) : App.web := visit "POST" (lit "/auth/login?" ++ query [(lit "next", next)]) [] [] None right_form.
Definition token_visit (items : params) : App.web := visit "POST" (lit "/connect/token") (basic "web" "s3cret") (query items) None no_form.
Definition revoke_visit (items : params) : App.web := visit "POST" (lit "/connect/revoke") (basic "web" "s3cret") (query items) None no_form.
Definition logout_visit (cookie : option (str * str)) : App.web := visit "GET" (lit "/auth/logout") [] [] cookie no_form.
Definition plain_code (code : str) : params := [L "grant_type" "authorization_code"; (lit "code", code); (lit "redirect_uri", cb); L "code_verifier" verifier].
Definition cookie1 : option (str * str) := Some (lit "alice", lit "tok2").
Definition cookie2 : option (str * str) := Some (lit "alice", lit "tok26").
Definition login_again : page * App.web := (LoginPage, login_at (host ++ authz_path)).
Definition visits : list (page * App.web) :=
  [login_again; (AuthorizePage, authz_visit "GET" cookie1); (TokenPage, token_visit (plain_code (lit "tok6"))); (LogoutPage, logout_visit cookie1);
   login_again; (AuthorizePage, authz_visit "GET" cookie2); (TokenPage, token_visit (plain_code (lit "tok30"))); (TokenPage, token_visit [L "grant_type" "refresh_token"; L "refresh_token" "tok37"])].
Definition visit_log : list (nat * aobs) := log_of 0 visits aworld0.
Lemma visits_running : app_running ref_env prov oidc visits visit_log. Proof. apply history_running. Qed.
Lemma visits_steps : app_steps light false tables0 (map snd visit_log) (aw_tables (after visits aworld0)). Proof. exact (log_steps visits 0 aworld0). Qed.
Lemma tables0_fresh : fresh_tables tables0.
Proof. split; [reflexivity|]. split; [reflexivity|]. split; [reflexivity|]. intros c [<-|[<-|[<-|[]]]]; exact (p_ex_client_restricts _ _ _ _ _ _ _). Qed.
Lemma visits_token : exists y, In (2%nat, OLib (OCreateAT OAuthRef.web (OwnUser alice) [lit "openid"; lit "email"] (V y))) visit_log.
Proof. eexists. apply nth_error_In with (n := 12%nat). wit. Qed.

(** ** A code survives the logout *)
Definition late_visits : list (page * App.web) :=
  [login_again; (AuthorizePage, authz_visit "GET" cookie1); (LogoutPage, logout_visit cookie1); (TokenPage, token_visit (plain_code (lit "tok6")))].
Definition late_log : list (nat * aobs) := log_of 0 late_visits aworld0.
Definition late_run := ago (TokenPage, token_visit (plain_code (lit "tok6"))) (after (firstn 3 late_visits) aworld0).
Definition response_in (x : res reply) : option response := match x with V (RResponse z) => Some z | _ => None end.
Lemma response_in_ok x z : response_in x = Some z -> x = V (RResponse z).
Proof. destruct x as [[| |x|]|]; try discriminate. intros [= ->]. reflexivity. Qed.
Lemma late_answer : exists z, aresult late_run = V (RResponse z) /\ rs_status z = 200.
Proof.
  destruct (response_in (aresult late_run)) as [z|] eqn:E; [|exfalso; revert E; vm_compute; discriminate]. exists z. split; [apply response_in_ok; exact E|].
  assert (H : option_map rs_status (response_in (aresult late_run)) = Some 200) by wit. rewrite E in H. injection H as ->. reflexivity.
Qed.
Lemma wit_late : exists qs log t t' l1 k l2 code ad sc y n w z, app_running ref_env prov oidc qs log /\ app_steps light false t (map snd log) t' /\ fresh_tables t /\
  log = l1 ++ (k, ODropSessions (us_id alice) (V tt)) :: l2 /\ nth_error (map fst qs) k = Some LogoutPage /\
  In (1%nat, OLib (OSaveCode code ad OAuthRef.web alice (V tt))) l1 /\ In (n, OLib (OCreateAT OAuthRef.web (OwnUser alice) sc (V y))) l2 /\
  (forall j sid v, ~ In (j, ONewSession sid (us_id alice) v) l2) /\ nth_error qs n = Some (TokenPage, w) /\
  aexec (application ref_env prov oidc TokenPage w) (acalls_of n log) (V (RResponse z)) /\ rs_status z = 200.
Proof.
  destruct late_answer as (z & Hz & H2).
  exists late_visits, late_log, tables0, (aw_tables (after late_visits aworld0)), (firstn 10 late_log), 2%nat, (skipn 11 late_log), (lit "tok6"). do 3 eexists.
  exists 3%nat, (token_visit (plain_code (lit "tok6"))), z.
  split; [apply history_running|]. split; [exact (log_steps late_visits 0 aworld0)|]. split; [exact tables0_fresh|]. split; [wit|]. split; [wit|].
  split; [apply nth_error_In with (n := 7%nat); wit|]. split; [apply nth_error_In with (n := 4%nat); wit|]. split.
  { intros j sid v Hin. assert (Hf : forallb (fun x => match snd x with ONewSession _ _ _ => false | _ => true end) (skipn 11 late_log) = true) by wit.
    rewrite forallb_forall in Hf. apply Hf in Hin. discriminate. }
  split; [wit|]. split; [|exact H2]. assert (E1 : acalls_of 3 late_log = atrace late_run) by wit. rewrite E1, <- Hz.
  exact (arun_exec light false (application ref_env prov oidc TokenPage (token_visit (plain_code (lit "tok6")))) (after (firstn 3 late_visits) aworld0)).
Qed.

(** ** Single requests *)
Lemma ago_exec q w : aexec (application ref_env prov oidc (fst q) (snd q)) (atrace (ago q w)) (aresult (ago q w)).
Proof. apply arun_exec. Qed.
Lemma ano_raise_at tr : forallb (fun o => match araised o with None => true | _ => false end) tr = true -> ano_raise tr.
Proof. intros H o Ho. rewrite forallb_forall in H. apply H in Ho. destruct (araised o); [discriminate|reflexivity]. Qed.
Lemma url_at u : forallb (fun c => Base.inc c (lit "ABCDEFGHIJKLMNOPQRSTUVWXYZabcdefghijklmnopqrstuvwxyz0123456789-._~:/?#[]@!$&'()*+,;=%")) u = true -> is_url u.
Proof. intros H. rewrite forallb_forall in H. apply Forall_forall. intros c Hc. apply inc_In, H, Hc. Qed.
Lemma host_origin : is_origin host.
Proof. split; [apply url_at; wit|]. split; apply inc_nIn; wit. Qed.
(** Without a session *)
Definition sent := ago (AuthorizePage, authz_visit "GET" None) aworld0.
Definition redirected (x : res reply) : str := match x with V (RRedirect l _) => l | _ => [] end.
(** ... and back, or elsewhere *)
Definition followed : App.web := {| wb_method := lit "POST"; wb_base := host; wb_url := redirected (aresult sent); wb_headers := []; wb_body := []; wb_cookie := None; wb_form := right_form |}.
Definition back := ago (LoginPage, followed) aworld0.
Definition evil : str := lit "https://evil.example/".
Definition lured := ago (LoginPage, login_at evil) aworld0.
(** Without an answer *)
Definition no_token_run := ago (RevokePage, revoke_visit [L "token_type_hint" "refresh_token"]) aworld0.
Definition head_run := ago (AuthorizePage, authz_visit "HEAD" cookie1) (after [login_again] aworld0).
Lemma wit_no_token : exists w tr, aexec (application ref_env prov oidc RevokePage w) tr (X (Py AttributeError)) /\ ano_raise tr.
Proof.
  exists (revoke_visit [L "token_type_hint" "refresh_token"]), (atrace no_token_run). assert (E : aresult no_token_run = X (Py AttributeError)) by wit.
  split; [rewrite <- E; exact (ago_exec (RevokePage, revoke_visit [L "token_type_hint" "refresh_token"]) aworld0)|apply ano_raise_at; wit].
Qed.
