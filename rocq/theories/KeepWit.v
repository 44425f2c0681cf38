(** A logout and a revocation, for the example of C174. *)
From Coq Require Import String Ascii List NArith ZArith Bool Arith.
From Verif Require Import Base Webtools Crypto Jwk Prog Http OAuth SpecOAuth Example OAuthRef OAuthWit FlowWit App SpecApp AppFacts AppWit LifeWit SpecKeep.
Import ListNotations.
Open Scope string_scope.
Open Scope list_scope.
Open Scope N_scope.

Lemma log_app : forall a k b w, log_of k (a ++ b) w = log_of k a w ++ log_of (k + length a) b (after a w).
Proof.
  induction a as [|q a IH]; intros k b w; [cbn [length]; rewrite Nat.add_0_r; reflexivity|].
  change (log_of k ((q :: a) ++ b) w) with (map (pair k) (atrace (ago q w)) ++ log_of (S k) (a ++ b) (aworld_of (ago q w))).
  rewrite IH, app_assoc. cbn [length]. rewrite Nat.add_succ_r. reflexivity.
Qed.
(** A login, a code and a token; then the logout, or the revocation *)
Definition early : list (page * App.web) := firstn 3 visits.
Definition early_log : list (nat * aobs) := log_of 0 early aworld0.
Definition early_tables : tables := aw_tables (after early aworld0).
Definition ends_1 : list (page * App.web) := [(LogoutPage, logout_visit cookie1)].
Definition ends_2 : list (page * App.web) := [(RevokePage, revoke_visit [L "token" "tok13"])].
Definition then_log (l : list (page * App.web)) : list (nat * aobs) := log_of 3 l (after early aworld0).
Definition then_tables (l : list (page * App.web)) : tables := aw_tables (after l (after early aworld0)).
Lemma then_running l : app_running ref_env prov oidc (early ++ l) (early_log ++ then_log l).
Proof. pose proof (history_running (early ++ l) aworld0) as H. rewrite log_app in H. exact H. Qed.
Lemma early_steps : app_steps light false tables0 (map snd early_log) early_tables. Proof. exact (log_steps early 0 aworld0). Qed.
Lemma then_steps l : app_steps light false early_tables (map snd (then_log l)) (then_tables l). Proof. exact (log_steps l 3 (after early aworld0)). Qed.
Lemma keep_example :
  app_running ref_env prov oidc (early ++ ends_1) (early_log ++ then_log ends_1) /\ app_running ref_env prov oidc (early ++ ends_2) (early_log ++ then_log ends_2) /\
  app_steps light false tables0 (map snd early_log) early_tables /\
  app_steps light false early_tables (map snd (then_log ends_1)) (then_tables ends_1) /\ app_steps light false early_tables (map snd (then_log ends_2)) (then_tables ends_2) /\ tb_sessions tables0 = [] /\
  tb_sessions early_tables = [(lit "tok2", lit "alice")] /\ tb_sessions (then_tables ends_1) = [] /\ tb_sessions (then_tables ends_2) = [(lit "tok2", lit "alice")] /\
  (exists rt, st_rts (tb_store early_tables) = [(lit "tok13", rt)] /\ rt_user rt = lit "alice" /\ rt_client rt = lit "web") /\
  st_rts (tb_store (then_tables ends_1)) = [] /\ st_rts (tb_store (then_tables ends_2)) = [] /\
  logs_out (early_log ++ then_log ends_1) 3 (LogoutPage, logout_visit cookie1) (lit "alice").
Proof.
  split; [apply then_running|]. split; [apply then_running|]. split; [exact early_steps|]. split; [apply then_steps|]. split; [apply then_steps|]. split; [reflexivity|].
  split; [wit|]. split; [wit|]. split; [wit|]. split; [eexists; split; [wit|split; wit]|]. split; [wit|]. split; [wit|].
  split; [reflexivity|]. split; [left; reflexivity|]. exists (lit "tok2"), alice. split; [reflexivity|]. apply in_app_iff. right. apply nth_error_In with (n := 0%nat). wit.
Qed.
