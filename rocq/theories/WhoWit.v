(** A login, a code and a token, for the example of C175. *)
From Coq Require Import String Ascii List NArith ZArith Bool Arith Lia.
From Verif Require Import Base Webtools Crypto Jwk Prog Http OAuth SpecOAuth Example OAuthRef OAuthWit FlowWit App SpecApp AppFacts AppWit LifeWit KeepWit.
Import ListNotations.
Open Scope string_scope.
Open Scope list_scope.
Open Scope N_scope.

Definition log_before (k : nat) : list (nat * aobs) := log_of 0 (firstn k early) aworld0.
Definition log_since (k : nat) : list (nat * aobs) := log_of k (skipn k early) (after (firstn k early) aworld0).
Definition tables_at (k : nat) : tables := aw_tables (after (firstn k early) aworld0).
Lemma after_app : forall a b w, after (a ++ b) w = after b (after a w).
Proof. induction a as [|q a IH]; intros b w; [reflexivity|]. exact (IH b (aworld_of (ago q w))). Qed.
Lemma who_running k : (k <= 3)%nat -> app_running ref_env prov oidc early (log_before k ++ log_since k).
Proof.
  intros Hk. pose proof (history_running (firstn k early ++ skipn k early) aworld0) as H. rewrite log_app in H. rewrite firstn_length_le in H by exact Hk. rewrite firstn_skipn in H. exact H.
Qed.
Lemma who_steps k : (k <= 3)%nat -> app_steps light false tables0 (map snd (log_before k)) (tables_at k) /\ app_steps light false (tables_at k) (map snd (log_since k)) (tables_at 3).
Proof.
  intros Hk. split; [exact (log_steps (firstn k early) 0 aworld0)|]. pose proof (log_steps (skipn k early) k (after (firstn k early) aworld0)) as H.
  rewrite <- after_app, firstn_skipn in H. exact H.
Qed.
Lemma who_example : (forall k, (k <= 3)%nat -> app_running ref_env prov oidc early (log_before k ++ log_since k) /\
    app_steps light false tables0 (map snd (log_before k)) (tables_at k) /\ app_steps light false (tables_at k) (map snd (log_since k)) (tables_at 3)) /\
  tb_sessions tables0 = [] /\ tb_sessions (tables_at 3) = [(lit "tok2", lit "alice")] /\
  (exists row, st_codes (tb_store (tables_at 2)) = [(lit "tok6", row)] /\ ac_user row = lit "alice" /\ ac_client row = lit "web" /\ ac_redirect row = cb) /\
  st_codes (tb_store (tables_at 1)) = [] /\ st_codes (tb_store (tables_at 3)) = [] /\
  st_rts (tb_store (tables_at 2)) = [] /\ exists rt, st_rts (tb_store (tables_at 3)) = [(lit "tok13", rt)] /\ rt_client rt = lit "web".
Proof.
  split; [intros k Hk; split; [apply who_running; exact Hk|apply who_steps; exact Hk]|].
  split; [reflexivity|]. split; [wit|]. split; [eexists; split; [wit|split; [wit|split; wit]]|]. split; [wit|]. split; [wit|]. split; [wit|]. eexists. split; wit.
Qed.
