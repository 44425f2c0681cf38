(** Who ends sessions and refresh tokens in the example application: C174. *)
From Coq Require Import String Ascii List NArith ZArith Bool Arith.
From Verif Require Import Base Webtools Crypto Jwk Prog Http OAuth SpecOAuth Example OAuthRef OAuthWit FlowWit App SpecApp AppFacts AppWit LifeWit SpecKeep KeepFacts KeepWit.
Import ListNotations.
Open Scope string_scope.
Open Scope list_scope.
Open Scope N_scope.

(** C174.  Whatever requests run interleaved, and wherever they stop: a session ends only by a logout with a session
    of the same user, *)
Theorem C174_sessions : forall E p hs C aware qs l1 l2 t t' sid uid, app_running E p hs qs (l1 ++ l2) -> app_steps C aware t (map snd l2) t' ->
  In (sid, uid) (tb_sessions t) -> ~ In (sid, uid) (tb_sessions t') ->
  exists n q, acted n l2 /\ nth_error qs n = Some q /\ logs_out (l1 ++ l2) n q uid.
Proof. exact c174_sessions. Qed.
Print Assumptions C174_sessions.
(** ... a refresh token only by such a logout or by its client, *)
Theorem C174_refresh_tokens : forall E p hs C aware qs l1 l2 t0 t t' k rt, app_running E p hs qs (l1 ++ l2) -> app_steps C aware t0 (map snd l1) t -> app_steps C aware t (map snd l2) t' ->
  In (k, rt) (st_rts (tb_store t)) -> ~ In (k, rt) (st_rts (tb_store t')) ->
  exists n q, acted n l2 /\ nth_error qs n = Some q /\ (logs_out (l1 ++ l2) n q (rt_user rt) \/ revokes_for t0 (l1 ++ l2) n q (rt_client rt) k).
Proof. exact c174_refresh. Qed.
Print Assumptions C174_refresh_tokens.
(** ... and who logs out has logged in with the password. *)
Theorem C174_password : forall E p hs C aware qs log t t' n q uid, app_running E p hs qs log -> app_steps C aware t (map snd log) t' -> tb_sessions t = [] ->
  logs_out log n q uid -> exists sid, wb_cookie (snd q) = Some (uid, sid) /\ logged_in t qs log uid sid n.
Proof. exact c174_password. Qed.
Print Assumptions C174_password.
Example C174_example :
  app_running ref_env prov oidc (early ++ ends_1) (early_log ++ then_log ends_1) /\ app_running ref_env prov oidc (early ++ ends_2) (early_log ++ then_log ends_2) /\
  app_steps light false tables0 (map snd early_log) early_tables /\
  app_steps light false early_tables (map snd (then_log ends_1)) (then_tables ends_1) /\ app_steps light false early_tables (map snd (then_log ends_2)) (then_tables ends_2) /\ tb_sessions tables0 = [] /\
  tb_sessions early_tables = [(lit "tok2", lit "alice")] /\ tb_sessions (then_tables ends_1) = [] /\ tb_sessions (then_tables ends_2) = [(lit "tok2", lit "alice")] /\
  (exists rt, st_rts (tb_store early_tables) = [(lit "tok13", rt)] /\ rt_user rt = lit "alice" /\ rt_client rt = lit "web") /\
  st_rts (tb_store (then_tables ends_1)) = [] /\ st_rts (tb_store (then_tables ends_2)) = [] /\
  logs_out (early_log ++ then_log ends_1) 3 (LogoutPage, logout_visit cookie1) (lit "alice").
Proof. exact keep_example. Qed.
