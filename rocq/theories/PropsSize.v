(** How large the tables of the example application become: C177. *)
From Coq Require Import String Ascii List NArith ZArith Bool Arith.
From Verif Require Import Base SpecReaders Webtools Crypto Jwk Prog Http OAuth SpecOAuth Example OAuthRef OAuthWit FlowWit SpecLife App SpecApp AppFacts AppWit LifeWit KeepWit WhoWit SpecSound SoundFacts SoundWit SpecSize SizeFacts SizeWit.
Import ListNotations.
Open Scope string_scope.
Open Scope list_scope.
Open Scope N_scope.

(** C177 is refuted for codes, which only an exchange deletes (C175): one user gets as many for one client as they ask
    for, up to the number of texts tried here, *)
Theorem C177_codes_refuted : forall n, N.of_nat n <= 2 ^ 64 -> exists qs log t0 t, app_running ref_env prov oidc qs log /\ app_steps light false t0 (map snd log) t /\
  set_up t0 /\ consistent (cf_scopes (pv_config prov)) t0 /\ st_codes (tb_store t0) = [] /\
  length (st_codes (tb_store t)) = n /\ forall k row, In (k, row) (st_codes (tb_store t)) -> length k = 64%nat /\ ac_client row = lit "web" /\ ac_user row = lit "alice".
Proof. exact c177_codes. Qed.
Print Assumptions C177_codes_refuted.
(** and for sessions, by logins that overlap: all look for a session of the user before the first has stored one. *)
Theorem C177_sessions_refuted : forall n, N.of_nat n <= 2 ^ 32 -> exists qs log t, app_running ref_env prov oidc qs log /\ app_steps light false tables0 (map snd log) t /\
  tb_sessions tables0 = [] /\ length (tb_sessions t) = n /\ forall sid uid, In (sid, uid) (tb_sessions t) -> length sid = 32%nat /\ uid = lit "alice".
Proof. exact c177_sessions_refuted. Qed.
Print Assumptions C177_sessions_refuted.
(** If each request begins after the one before has ended or stopped, there is one session for a user; *)
Theorem C177_sessions_partial : forall E p hs C aware t t', one_by_one E p hs C aware t t' -> one_session t -> one_session t'.
Proof. exact c177_sessions. Qed.
Print Assumptions C177_sessions_partial.
(** and however requests interleave, there are no more refresh tokens than pairs of a client and a user. *)
Theorem C177_refresh_tokens_partial : forall E p hs, (forall b, bytes_ok (e_sha256 E b)) -> order_ok E -> forall C aware qs t0, set_up t0 -> consistent (cf_scopes (pv_config p)) t0 ->
  forall log t, app_running E p hs qs log -> app_steps C aware t0 (map snd log) t -> (length (st_rts (tb_store t)) <= length (st_clients (tb_store t0)) * length (st_users (tb_store t0)))%nat.
Proof. exact c177_refresh_bound. Qed.
Print Assumptions C177_refresh_tokens_partial.
Example C177_example : one_by_one ref_env prov oidc light false tables0 early_tables /\ one_session tables0 /\ length (tb_sessions early_tables) = 1%nat /\ length (st_rts (tb_store early_tables)) = 1%nat.
Proof. exact size_example. Qed.
