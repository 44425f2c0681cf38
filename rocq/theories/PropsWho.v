(** Who changes what in the data base of the example application: C175. *)
From Coq Require Import String Ascii List NArith ZArith Bool Arith.
From Verif Require Import Base SpecReaders Webtools Crypto Jwk Prog Http OAuth SpecOAuth Example OAuthRef OAuthWit FlowWit App SpecApp AppFacts AppWit LifeWit SpecKeep KeepWit SpecWho WhoFacts WhoWit.
Import ListNotations.
Open Scope string_scope.
Open Scope list_scope.
Open Scope N_scope.

(** C175.  Between two points of a history of interleaved requests: a code appears only by an authorization request of
    its user, *)
Theorem C175_code_saved : forall E p hs C aware qs l1 l2 t0 t t', app_running E p hs qs (l1 ++ l2) -> app_steps C aware t0 (map snd l1) t -> app_steps C aware t (map snd l2) t' ->
  forall k row, ~ In (k, row) (st_codes (tb_store t)) -> In (k, row) (st_codes (tb_store t')) ->
  exists n q, acted n l2 /\ nth_error qs n = Some q /\ authorizes t0 (l1 ++ l2) n q row.
Proof. exact c175_code_saved. Qed.
Print Assumptions C175_code_saved.
(** ... who logged in with the password, *)
Theorem C175_password : forall E p hs C aware qs log t t' n q row, app_running E p hs qs log -> app_steps C aware t (map snd log) t' -> tb_sessions t = [] ->
  authorizes t log n q row -> exists sid, wb_cookie (snd q) = Some (ac_user row, sid) /\ logged_in t qs log (ac_user row) sid n.
Proof. exact c175_password. Qed.
Print Assumptions C175_password.
(** ... and disappears only by a token request that names it, of whatever client (C91), *)
Theorem C175_code_deleted : forall E p hs C aware qs l1 l2 t0 t t', app_running E p hs qs (l1 ++ l2) -> app_steps C aware t0 (map snd l1) t -> app_steps C aware t (map snd l2) t' ->
  forall k row, In (k, row) (st_codes (tb_store t)) -> ~ In (k, row) (st_codes (tb_store t')) ->
  exists n q r c, acted n l2 /\ nth_error qs n = Some q /\ asks_token t0 q r c /\ data_has r "grant_type" (chars "authorization_code") /\ data_has r "code" k.
Proof. exact c175_code_deleted. Qed.
Print Assumptions C175_code_deleted.
(** ... a refresh token appears only by a token request of its client (C174 tells how it disappears), *)
Theorem C175_refresh_created : forall E p hs C aware qs l1 l2 t0 t t', app_running E p hs qs (l1 ++ l2) -> app_steps C aware t0 (map snd l1) t -> app_steps C aware t (map snd l2) t' ->
  forall k rt, ~ In (k, rt) (st_rts (tb_store t)) -> In (k, rt) (st_rts (tb_store t')) ->
  exists n q r c, acted n l2 /\ nth_error qs n = Some q /\ asks_token t0 q r c /\ cl_id c = rt_client rt.
Proof. exact c175_refresh_created. Qed.
Print Assumptions C175_refresh_created.
(** ... a session only by a login with the password, *)
Theorem C175_session_started : forall E p hs C aware qs l1 l2 t0 t t', app_running E p hs qs (l1 ++ l2) -> app_steps C aware t0 (map snd l1) t -> app_steps C aware t (map snd l2) t' ->
  forall sid uid, ~ In (sid, uid) (tb_sessions t) -> In (sid, uid) (tb_sessions t') ->
  exists n q, acted n l2 /\ nth_error qs n = Some q /\ submits_password t0 uid q.
Proof. exact c175_session_started. Qed.
Print Assumptions C175_session_started.
(** ... and nothing else changes. *)
Theorem C175_rest_unchanged : forall C aware (l : list (nat * aobs)) t t', app_steps C aware t (map snd l) t' ->
  st_clients (tb_store t') = st_clients (tb_store t) /\ st_users (tb_store t') = st_users (tb_store t) /\ tb_accounts t' = tb_accounts t.
Proof. exact c175_same. Qed.
Print Assumptions C175_rest_unchanged.
Example C175_example : (forall k, (k <= 3)%nat -> app_running ref_env prov oidc early (log_before k ++ log_since k) /\
    app_steps light false tables0 (map snd (log_before k)) (tables_at k) /\ app_steps light false (tables_at k) (map snd (log_since k)) (tables_at 3)) /\
  tb_sessions tables0 = [] /\ tb_sessions (tables_at 3) = [(lit "tok2", lit "alice")] /\
  (exists row, st_codes (tb_store (tables_at 2)) = [(lit "tok6", row)] /\ ac_user row = lit "alice" /\ ac_client row = lit "web" /\ ac_redirect row = cb) /\
  st_codes (tb_store (tables_at 1)) = [] /\ st_codes (tb_store (tables_at 3)) = [] /\
  st_rts (tb_store (tables_at 2)) = [] /\ exists rt, st_rts (tb_store (tables_at 3)) = [(lit "tok13", rt)] /\ rt_client rt = lit "web".
Proof. exact who_example. Qed.
